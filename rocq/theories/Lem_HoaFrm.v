(** * Lem_HoaFrm: the side information of an HOA frame is read back *)

From Coq Require Import ZArith List Lia Bool.
From Verif Require Import Bits BitBuf Prog Wp Asi Hoa Lem_Hoa HoaFrm Spec_HoaFrm.
Import ListNotations.
Open Scope Z_scope.

Lemma rb1 {B} (b : bool) (k : Z -> prog B) r : runA (bind (rd 1) k) (b :: r) = runA (k (Z.b2z b)) r.
Proof.
  change (b :: r) with ([b] ++ r). rewrite <- (runA_rdb 1 1 (Z.b2z b) k r) by (destruct b; cbn; lia).
  destruct b; reflexivity.
Qed.
Lemma rw {B} w v (k : Z -> prog B) r :
  0 <= w <= 24 -> 0 <= v < 2 ^ w -> runA (bind (rd w) k) (wbits w v ++ r) = runA (k v) r.
Proof. intros H H'. unfold wbits. apply runA_rdb; lia. Qed.

(** ** Gains *)
Lemma zeros_run : forall n fuel g r, (n <= fuel)%nat ->
  runA (zeros fuel g) (repeat false n ++ true :: r) = Done (g + Z.of_nat n + 1, r).
Proof.
  induction n as [|n IH]; intros fuel g r H.
  - destruct fuel; cbn [repeat app zeros]; rewrite rb1; cbn; do 2 f_equal; lia.
  - destruct fuel as [|fuel]; [lia|]. cbn [repeat app zeros]. rewrite rb1. cbn [Z.b2z].
    change (negb (0 =? 0)) with false. cbv iota. rewrite IH by lia. do 2 f_equal. lia.
Qed.
Lemma gain_run g r : 1 <= g -> runA gain_part (repeat false (Z.to_nat (g - 1)) ++ true :: r) = Done (g, r).
Proof.
  intros H. unfold gain_part. cbn [runA]. rewrite zeros_run.
  - do 2 f_equal. lia.
  - rewrite app_length, repeat_length. lia.
Qed.
Lemma amp_run h r v : 0 <= h_gcb h <= 24 -> 0 <= h_coef h <= 49 ->
  0 <= v + amp_off h < 2 ^ h_gcb h -> runA (amp_part h) (wbits (h_gcb h) (v + amp_off h) ++ r) = Done (v, r).
Proof.
  intros H Hc Hv. unfold amp_part. rewrite rw by assumption. cbn [runA]. unfold amp_off.
  rewrite clog2_up. { do 2 f_equal. lia. }
  assert (3 * h_coef h / 2 <= 147) by (apply Z.div_le_upper_bound; lia). lia.
Qed.

(** ** Vectors *)
Definition exp_q (q : qmode) (m : vmode) : qmode :=
  match m with
  | MBook b n => mkQ 4 b n (q_p q) (q_cbf q)
  | M8 => mkQ 5 (q_cb q) (q_nvi q) (q_p q) (q_cbf q)
  | MHuff nq p t => mkQ nq (q_cb q) (q_nvi q) (Z.b2z p) (Z.b2z t)
  end.
Definition exp_new (h : hoac) (ind : bool) (pt : Z) (new : bool) : Z :=
  if ind then (if h_cvv h =? 1 then Z.b2z new else 0)
  else if (h_cvv h =? 1) && negb (pt =? 1) then 1 else 0.
Lemma exp_mode q m h ind : mode_ok h ind m -> mode_of (exp_q q m) = Some m.
Proof.
  destruct m as [b n| |nq p t]; cbn; intros H; try reflexivity. unfold mode_of. cbn.
  destruct (Z.eqb_spec nq 4); [lia|]. destruct (Z.eqb_spec nq 5); [lia|].
  destruct (Z.leb_spec 6 nq); [|lia]. destruct p, t; reflexivity.
Qed.

Lemma vq_run h nq q b n r : 0 <= h_nvv h <= 24 -> 0 <= b < 8 -> 1 <= n <= 2 ^ h_nvv h ->
  runA (vq_part h nq q) (wbits 3 b ++ wbits (h_nvv h) (n - 1) ++ r) = Done (mkQ nq b n (q_p q) (q_cbf q), r).
Proof.
  intros H Hb Hn. unfold vq_part. rewrite rw by (cbn; lia). rewrite rw by lia. cbn [runA]. do 3 f_equal. lia.
Qed.
Lemma four nq r : 0 <= nq <= 15 ->
  wbits 4 nq ++ r = (8 <=? nq) :: (4 <=? nq mod 8) :: wbits 2 (nq mod 4) ++ r.
Proof.
  intros H. assert (E : exists k, (k < 16)%nat /\ nq = Z.of_nat k) by (exists (Z.to_nat nq); lia).
  destruct E as (k & Hk & ->). do 16 (destruct k as [|k]; [reflexivity|]). lia.
Qed.
Lemma fourv nq : 0 <= nq <= 15 -> 8 * Z.b2z (8 <=? nq) + 4 * Z.b2z (4 <=? nq mod 8) + nq mod 4 = nq.
Proof.
  intros H. assert (E : exists k, (k < 16)%nat /\ nq = Z.of_nat k) by (exists (Z.to_nat nq); lia).
  destruct E as (k & Hk & ->). do 16 (destruct k as [|k]; [reflexivity|]). lia.
Qed.
Lemma fourz nq : 4 <= nq <= 15 -> negb (Z.b2z (8 <=? nq) + Z.b2z (4 <=? nq mod 8) =? 0) = true.
Proof.
  intros H. assert (E : exists k, (k < 16)%nat /\ nq = Z.of_nat k) by (exists (Z.to_nat nq); lia).
  destruct E as (k & Hk & ->). do 4 (destruct k as [|k]; [lia|]). do 12 (destruct k as [|k]; [reflexivity|]). lia.
Qed.

Lemma vec_run h ind pt pq q new m r :
  0 <= h_nvv h <= 24 ->
  match m with Some m => mode_ok h ind m | None => ind = false end ->
  runA (vec_part h (Z.b2z ind) pt pq q)
    ((if ind && (h_cvv h =? 1) then [new] else []) ++
     match m with Some m => mode_bits h ind m | None => [false; false] end ++ r)
  = Done (Ok (exp_new h ind pt new, match m with Some m => exp_q q m | None => pq end), r).
Proof.
  intros Hc Hm. unfold vec_part, exp_new. destruct ind; cbn [Z.b2z andb].
  - change (1 =? 0) with false. cbv iota. destruct m as [m|]; [|discriminate].
    assert (A : forall nw : Z, @runA (res (Z * qmode))
      (nq <- rd 4 ;;
       (if nq / 4 =? 0 then Ret (Er E_NBITSQ)
        else if nq =? 4 then q0 <- vq_part h nq q ;; Ret (Ok (nw, q0))
        else if 6 <=? nq then b <- rd 1 ;; Ret (Ok (nw, mkQ nq (q_cb q) (q_nvi q) 0 b))
        else Ret (Ok (nw, mkQ nq (q_cb q) (q_nvi q) (q_p q) (q_cbf q))))) (mode_bits h true m ++ r)
      = Done (Ok (nw, exp_q q m), r)).
    { intros nw. destruct m as [b n| |nq p t]; cbn [mode_bits mode_ok exp_q] in *.
      - rewrite <- !app_assoc, rw by (cbn; lia). change (4 / 4 =? 0) with false. change (4 =? 4) with true. cbv iota.
        rewrite runA_bind, vq_run by lia. reflexivity.
      - rewrite rw by (cbn; lia). reflexivity.
      - destruct Hm as (Hn & Hp). rewrite (Hp eq_refl). rewrite <- app_assoc, rw by (cbn; lia).
        destruct (Z.eqb_spec (nq / 4) 0) as [E|_]. { apply Z.div_small_iff in E; lia. }
        destruct (Z.eqb_spec nq 4); [lia|]. destruct (Z.leb_spec 6 nq); [|lia].
        cbn [app]. rewrite rb1. reflexivity. }
    destruct (h_cvv h =? 1); cbn [app]; [rewrite rb1|cbn [bind]]; apply A.
  - change (0 =? 0) with true. cbv iota zeta. cbn [app].
    generalize (if (h_cvv h =? 1) && negb (pt =? 1) then 1 else 0). intros nw.
    destruct m as [m|]; [|cbn [app]; rewrite !rb1; reflexivity].
    destruct m as [b n| |nq p t]; cbn [mode_bits mode_ok exp_q] in *.
    + rewrite <- !app_assoc, four by lia. rewrite !rb1, fourz by lia. rewrite rw by (cbn; lia).
      cbv zeta. rewrite fourv by lia. change (4 =? 4) with true. cbv iota.
      rewrite runA_bind, vq_run by lia. reflexivity.
    + rewrite four by lia. rewrite !rb1, fourz by lia. rewrite rw by (cbn; lia). reflexivity.
    + destruct Hm as (Hn & _). rewrite <- !app_assoc, four by lia. rewrite !rb1, fourz by lia.
      rewrite rw by (change (2 ^ 2) with 4; pose proof (Z.mod_pos_bound nq 4); lia). cbv zeta. rewrite fourv by lia.
      destruct (Z.eqb_spec nq 4); [lia|]. destruct (Z.leb_spec 6 nq); [|lia].
      cbn [app]. rewrite !rb1. reflexivity.
Qed.

(** ** Ambience *)
Definition role_ok (h : hoac) (ind : bool) (o : hch) (r : role) : Prop :=
  match r with
  | RDir d => 0 <= d <= 900
  | RVec _ m => match m with Some m => mode_ok h ind m | None => ind = false end
  | RAmb st idx =>
    (h_cvv h = 1 -> 0 <= idx <= 48) /\
    if ind then (st = 0 \/ st = 1 \/ st = 2) /\ h_minco h < idx <= h_minco h + h_maxadd h
    else (st = 0 /\ idx = k_aidx o) \/ (st = 2 /\ k_trans o <= 1 /\ idx = k_aidx o) \/
         (st = 1 /\ 2 <= k_trans o /\ h_minco h < idx <= h_minco h + h_maxadd h)
  | RNone => True
  end.
Lemma legal_ok h ind o r : role_legal h ind o r -> low48 h r -> role_ok h ind o r.
Proof. destruct r; cbn; auto. Qed.
Lemma amb_run h ind o st idx r :
  conf_ok h -> role_ok h ind o (RAmb st idx) ->
  runA (amb_part h (Z.b2z ind) o)
    ((if ind then wbits 2 st ++ wbits (h_aab h) (idx - 1 - h_minco h)
     else if st =? 0 then [false] else if st =? 2 then [true]
     else true :: wbits (h_aab h) (idx - 1 - h_minco h)) ++ r) = Done (Ok (st, idx), r).
Proof.
  intros (H1 & H2 & H3 & H4 & _) (_ & H). unfold amb_part. destruct ind; cbn [Z.b2z].
  - destruct H as (Hs & Hi). change (1 =? 0) with false. cbv iota. rewrite <- app_assoc, rw by (cbn; lia).
    destruct (Z.eqb_spec st 3); [lia|]. rewrite rw by lia.
    destruct (Z.leb_spec (h_maxadd h) (idx - 1 - h_minco h)); [lia|]. cbn [runA]. do 4 f_equal. lia.
  - change (0 =? 0) with true. cbv iota. destruct H as [(-> & ->)|[(-> & Hk & ->)|(-> & Hk & Hi)]].
    + change (0 =? 0) with true. cbv iota. cbn [app]. rewrite rb1. reflexivity.
    + change (2 =? 0) with false. change (2 =? 2) with true. cbv iota. cbn [app]. rewrite rb1. cbn [Z.b2z].
      change (negb (1 =? 1)) with false. cbv iota. destruct (Z.leb_spec (k_trans o) 1); [|lia]. reflexivity.
    + change (1 =? 0) with false. change (1 =? 2) with false. cbv iota. cbn [app]. rewrite rb1. cbn [Z.b2z].
      change (negb (1 =? 1)) with false. cbv iota. destruct (Z.leb_spec (k_trans o) 1); [lia|].
      rewrite rw by lia. cbn [runA]. do 4 f_equal. lia.
Qed.

(** ** One channel *)
Definition put {A} (l : list A) (i : nat) (v : A) : list A := firstn i l ++ v :: skipn (S i) l.
Lemma put_len {A} (l : list A) i v : (i < length l)%nat -> length (put l i v) = length l.
Proof. intros H. unfold put. rewrite app_length, firstn_length. cbn [length]. rewrite skipn_length. lia. Qed.
Lemma put_same {A} (l : list A) i v : (i < length l)%nat -> nth_error (put l i v) i = Some v.
Proof.
  intros H. unfold put. rewrite nth_error_app2 by (rewrite firstn_length; lia).
  rewrite firstn_length, Nat.min_l, Nat.sub_diag by lia. reflexivity.
Qed.
Lemma put_other {A} (l : list A) i j v : i <> j -> (i < length l)%nat -> nth_error (put l i v) j = nth_error l j.
Proof.
  intros H Hi. unfold put. destruct (Nat.lt_ge_cases j i) as [C|C].
  - rewrite nth_error_app1 by (rewrite firstn_length; lia).
    rewrite <- (firstn_skipn i l) at 2. rewrite nth_error_app1 by (rewrite firstn_length; lia). reflexivity.
  - rewrite nth_error_app2 by (rewrite firstn_length; lia). rewrite firstn_length, Nat.min_l by lia.
    replace (j - i)%nat with (S (j - S i)) by lia. cbn [nth_error].
    rewrite <- (firstn_skipn (S i) l) at 2. rewrite nth_error_app2 by (rewrite firstn_length; lia).
    rewrite firstn_length, Nat.min_l by lia. reflexivity.
Qed.
Lemma put_nth (l : list Z) i j v : (i < length l)%nat -> nth j (put l i v) 0 = if Nat.eqb i j then v else nth j l 0.
Proof.
  intros H. destruct (Nat.eqb_spec i j) as [->|N].
  - apply nth_error_nth. apply put_same, H.
  - pose proof (put_other l i j v N H) as E. destruct (nth_error l j) as [x|] eqn:Ej.
    + rewrite (nth_error_nth _ _ _ E), (nth_error_nth _ _ _ Ej). reflexivity.
    + apply nth_error_None in E, Ej. rewrite !nth_overflow by assumption. reflexivity.
Qed.

Definition exp_role (pq : qmode) (o : hch) (r : role) : hch :=
  match r with
  | RDir d => mkHc 0 (k_trans o) (k_aidx o) (k_q o) d 0 0 0
  | RVec _ m => mkHc 1 (k_trans o) (k_aidx o) (match m with Some m => exp_q (k_q o) m | None => pq end) (k_dir o) 0 0 0
  | RAmb st idx => mkHc 2 st idx (k_q o) (k_dir o) 0 0 0
  | RNone => mkHc 3 (k_trans o) (k_aidx o) (k_q o) (k_dir o) 0 0 0
  end.
Definition fade_set (h : hoac) (x : Z) (r : role) (l : list Z) : list Z :=
  match r with
  | RAmb st idx => if (h_cvv h =? 1) && (st =? x) then put l (Z.to_nat idx) 1 else l
  | _ => l
  end.
Definition new_set (h : hoac) (ind : bool) (pt : Z) (i : nat) (r : role) (l : list Z) : list Z :=
  match r with RVec new _ => put l i (exp_new h ind pt new) | _ => l end.
Definition tcode (r : role) : Z := match r with RDir _ => 0 | RVec _ _ => 1 | RAmb _ _ => 2 | RNone => 3 end.
Definition step (h : hoac) (ind : bool) (i : nat) (o : hch) (pt : Z) (pq : qmode) (c : chan) (s : hfs) : hfs :=
  let k := exp_role pq o (c_role c) in
  mkHf (put (f_ch s) i (mkHc (k_type k) (k_trans k) (k_aidx k) (k_q k) (k_dir k)
          (if ind then c_amp c else 0) (c_gain c) (Z.b2z (c_exc c))))
    (f_pt s) (f_pq s) (new_set h ind pt i (c_role c) (f_new s))
    (fade_set h 1 (c_role c) (f_fade s)) (fade_set h 0 (c_role c) (f_nontr s))
    (f_vec s ++ if is_vec (c_role c) then [Z.of_nat i + 1] else [])
    (f_dir s ++ if is_dir (c_role c) then [Z.of_nat i + 1] else []).

Definition full (s : hfs) : Prop :=
  state_ok s /\ length (f_new s) = 49%nat /\ length (f_fade s) = 49%nat /\ length (f_nontr s) = 50%nat.

Definition body_bits (h : hoac) (ind : bool) (r : role) : list bool :=
  match r with
  | RDir d => wbits 10 d
  | RVec new m =>
    (if ind && (h_cvv h =? 1) then [new] else []) ++
    match m with Some m => mode_bits h ind m | None => [false; false] end
  | RAmb st idx =>
    (if ind then wbits 2 st ++ wbits (h_aab h) (idx - 1 - h_minco h)
     else if st =? 0 then [false] else if st =? 2 then [true]
     else true :: wbits (h_aab h) (idx - 1 - h_minco h))
  | RNone => []
  end.
Lemma role_split h ind r : role_bits h ind r = wbits 2 (tcode r) ++ body_bits h ind r.
Proof. destruct r; cbn; reflexivity. Qed.

Lemma role_run h ind i s o pt pq r rest :
  conf_ok h -> full s -> (i < 49)%nat -> role_ok h ind o r ->
  runA (role_part h (Z.b2z ind) i s o pt pq (tcode r)) (body_bits h ind r ++ rest)
  = Done (Ok (exp_role pq o r, new_set h ind pt i r (f_new s), fade_set h 1 r (f_fade s), fade_set h 0 r (f_nontr s)), rest).
Proof.
  intros Hc (_ & L1 & L2 & L3) Hi Hr. unfold role_part. destruct r as [d|new m|st idx|]; cbn [tcode].
  - change (0 =? 2) with false. change (0 =? 1) with false. change (0 =? 0) with true. cbv iota.
    cbn [body_bits role_ok] in *. rewrite rw by (change (2 ^ 10) with 1024; lia).
    destruct (Z.ltb_spec 900 d); [lia|]. reflexivity.
  - change (1 =? 2) with false. change (1 =? 1) with true. cbv iota. rewrite runA_bind.
    cbn [body_bits role_ok] in *. rewrite <- app_assoc, vec_run; [|apply Hc|exact Hr]. cbv beta iota.
    rewrite runA_aset by lia. rewrite Nat2Z.id. reflexivity.
  - change (2 =? 2) with true. cbv iota. rewrite runA_bind. cbn [body_bits].
    rewrite amb_run by assumption. cbv beta iota. destruct Hr as (Hf & _). cbn [exp_role fade_set new_set].
    destruct (Z.eqb_spec (h_cvv h) 1) as [E|_]; cbn [andb].
    + specialize (Hf E). destruct (Z.eqb_spec st 1) as [->|N].
      * rewrite runA_aset by lia. reflexivity.
      * cbn [bind]. destruct (Z.eqb_spec st 0); [rewrite runA_aset by lia|]; reflexivity.
    + reflexivity.
  - reflexivity.
Qed.

Lemma chan_run h ind i s o pt pq c rest :
  conf_ok h -> full s -> (i < 49)%nat -> (length (f_vec s) <= i)%nat -> (length (f_dir s) <= i)%nat ->
  nth_error (f_ch s) i = Some o -> nth_error (f_pt s) i = Some pt -> nth_error (f_pq s) i = Some pq ->
  role_ok h ind o (c_role c) -> amp_ok h ind c -> 1 <= c_gain c <= 65 ->
  runA (chan_one h (Z.b2z ind) i s) (role_bits h ind (c_role c) ++ gain_bits h ind c ++ rest)
  = Done (Ok (step h ind i o pt pq c s), rest).
Proof.
  intros Hc Hf Hi Hv Hd Eo Et Eq Hr Ha Hg. unfold chan_one.
  rewrite (runA_aget _ _ o) by (rewrite ?Nat2Z.id; try lia; assumption).
  rewrite (runA_aget _ _ pt) by (rewrite ?Nat2Z.id; try lia; assumption).
  rewrite (runA_aget _ _ pq) by (rewrite ?Nat2Z.id; try lia; assumption).
  rewrite role_split, <- app_assoc. rewrite rw by (destruct (c_role c); cbn; lia).
  rewrite runA_bind, role_run by assumption. cbv beta iota.
  assert (A : forall k, runA (amp <- (if Z.b2z ind =? 0 then Ret 0 else amp_part h) ;; k amp) (gain_bits h ind c ++ rest)
     = @runA (res hfs) (k (if ind then c_amp c else 0)) (repeat false (Z.to_nat (c_gain c - 1)) ++ true :: c_exc c :: rest)).
  { intros k. unfold gain_bits. destruct ind; cbn [Z.b2z].
    - change (1 =? 0) with false. cbv iota. rewrite runA_bind, <- !app_assoc.
      destruct Hc as (_ & _ & _ & _ & _ & Hg1 & Hco). rewrite amp_run by (try assumption; apply Ha; reflexivity). reflexivity.
    - change (0 =? 0) with true. cbv iota. cbn [bind app]. rewrite <- app_assoc. reflexivity. }
  rewrite A. rewrite runA_bind, gain_run by lia. destruct (Z.ltb_spec 65 (c_gain c)); [lia|].
  rewrite rb1. rewrite !runA_chk by lia.
  destruct Hf as ((L & _) & _). rewrite runA_aset by lia. rewrite Nat2Z.id. cbn [runA].
  unfold step. cbv zeta. do 4 f_equal; destruct (c_role c); cbn; rewrite ?app_nil_r; reflexivity.
Qed.

Lemma step_full h ind i o pt pq c s : (i < 49)%nat -> role_ok h ind o (c_role c) ->
  full s -> full (step h ind i o pt pq c s).
Proof.
  intros Hi Hr ((L1 & L2 & L3) & L4 & L5 & L6). unfold step. cbv zeta. split; [split; [|split]|split; [|split]]; cbn [f_ch f_pt f_pq f_new f_fade f_nontr]; try assumption.
  - rewrite put_len; lia.
  - destruct (c_role c); cbn [new_set]; try assumption. rewrite put_len; lia.
  - destruct (c_role c); cbn [fade_set]; try assumption. destruct Hr as (Hf & _).
    destruct (Z.eqb_spec (h_cvv h) 1) as [E|_]; cbn [andb]; [|assumption]. specialize (Hf E).
    destruct (st =? 1); [|assumption]. rewrite put_len; lia.
  - destruct (c_role c); cbn [fade_set]; try assumption. destruct Hr as (Hf & _).
    destruct (Z.eqb_spec (h_cvv h) 1) as [E|_]; cbn [andb]; [|assumption]. specialize (Hf E).
    destruct (st =? 0); [|assumption]. rewrite put_len; lia.
Qed.

(** ** All channels *)
Definition new_at (h : hoac) (ind : bool) (s : hfs) (i : nat) (cs : list chan) (j : nat) : Prop :=
  (i <= j)%nat /\ exists new m pt,
    option_map c_role (nth_error cs (j - i)) = Some (RVec new m) /\ nth_error (f_pt s) j = Some pt /\
    h_cvv h = 1 /\ if ind then new = true else pt <> 1.
Definition inv (h : hoac) (ind : bool) (i : nat) (cs : list chan) (s s' : hfs) : Prop :=
  f_pt s' = f_pt s /\ f_pq s' = f_pq s /\
  (forall j, (j < i)%nat \/ (i + length cs <= j)%nat -> nth_error (f_ch s') j = nth_error (f_ch s) j) /\
  (forall j c, nth_error cs j = Some c -> exists o pq k,
     nth_error (f_ch s) (i + j) = Some o /\ nth_error (f_pq s) (i + j) = Some pq /\ nth_error (f_ch s') (i + j) = Some k /\
     role_held pq (c_role c) k /\ role_kept (c_role c) o k /\
     k_amp k = (if ind then c_amp c else 0) /\ k_gain k = c_gain c /\ k_exc k = Z.b2z (c_exc c)) /\
  f_vec s' = f_vec s ++ numbers is_vec (Z.of_nat i + 1) cs /\
  f_dir s' = f_dir s ++ numbers is_dir (Z.of_nat i + 1) cs /\
  (forall j, nth j (f_new s') 0 = 1 <-> nth j (f_new s) 0 = 1 \/ new_at h ind s i cs j) /\
  (forall x, nth x (f_fade s') 0 = 1 <-> nth x (f_fade s) 0 = 1 \/ (h_cvv h = 1 /\ In (RAmb 1 (Z.of_nat x)) (map c_role cs))) /\
  (forall x, nth x (f_nontr s') 0 = 1 <-> nth x (f_nontr s) 0 = 1 \/ (h_cvv h = 1 /\ In (RAmb 0 (Z.of_nat x)) (map c_role cs))).

Lemma held_exp h ind pq o c a g e : role_ok h ind o (c_role c) ->
  let k := exp_role pq o (c_role c) in
  let k' := mkHc (k_type k) (k_trans k) (k_aidx k) (k_q k) (k_dir k) a g e in
  role_held pq (c_role c) k' /\ role_kept (c_role c) o k'.
Proof.
  intros H. destruct (c_role c) as [d|new m|st idx|]; cbn in *; repeat split; try reflexivity.
  destruct m as [m|]; [|reflexivity]. apply (exp_mode _ _ h ind H).
Qed.

Lemma fade_iff h ind o x r l n y : role_ok h ind o r -> length l = n -> (49 <= n)%nat ->
  nth y (fade_set h x r l) 0 = 1 <-> nth y l 0 = 1 \/ (h_cvv h = 1 /\ r = RAmb x (Z.of_nat y)).
Proof.
  intros Hr Hl Hn. destruct r as [d|new m|st idx|]; cbn [fade_set];
    try (split; [auto|intros [H|(_ & H)]; [exact H|discriminate]]).
  destruct Hr as (Hf & _). destruct (Z.eqb_spec (h_cvv h) 1) as [E|N]; cbn [andb].
  - specialize (Hf E). destruct (Z.eqb_spec st x) as [->|N].
    + rewrite put_nth by lia. destruct (Nat.eqb_spec (Z.to_nat idx) y) as [<-|M].
      * split; [|reflexivity]. intros _. right. split; [exact E|]. f_equal. lia.
      * split; [auto|]. intros [H|(_ & H)]; [exact H|]. injection H as H. lia.
    + split; [auto|]. intros [H|(_ & H)]; [exact H|]. congruence.
  - split; [auto|]. intros [H|(H & _)]; [exact H|]. congruence.
Qed.

Lemma new_iff h ind i s c pt l j : (i < length l)%nat -> nth i l 0 = 0 -> nth_error (f_pt s) i = Some pt ->
  nth j (new_set h ind pt i (c_role c) l) 0 = 1 <->
  nth j l 0 = 1 \/ new_at h ind s i [c] j.
Proof.
  intros Hl Hz Ept. unfold new_at. destruct (c_role c) as [d|new m|st idx|] eqn:Ec; cbn [new_set].
  2: { rewrite put_nth by assumption. destruct (Nat.eqb_spec i j) as [->|N].
    - rewrite Hz, Nat.sub_diag. cbn [nth_error option_map]. rewrite Ec, Ept. unfold exp_new. split.
      + intros H. right. split; [lia|]. exists new, m, pt. repeat split.
        * destruct (Z.eqb_spec (h_cvv h) 1); [assumption|]. destruct ind; cbn in H; lia.
        * destruct ind, (h_cvv h =? 1), new; cbn in H; try lia; try reflexivity; destruct (Z.eqb_spec pt 1); cbn in H; lia.
      + intros [H|(_ & n & m' & p & E1 & E2 & E3 & E4)]; [lia|]. injection E1 as <- _. injection E2 as <-.
        destruct (Z.eqb_spec (h_cvv h) 1); [|contradiction]. destruct ind; [rewrite E4; reflexivity|].
        destruct (Z.eqb_spec pt 1); [contradiction|reflexivity].
    - split; [auto|]. intros [H|(Hj & n & m' & p & E1 & _)]; [exact H|].
      destruct (j - i)%nat as [|q] eqn:E; [lia|]. cbn in E1. destruct q; discriminate. }
  all: split; [auto|]; intros [H|(Hj & n & m' & p & E1 & _)]; [exact H|];
    destruct (j - i)%nat as [|q]; cbn in E1; [rewrite Ec in E1|destruct q]; discriminate.
Qed.

Lemma numbers_len f : forall cs i, (length (numbers f i cs) <= length cs)%nat.
Proof. induction cs as [|c cs IH]; intros i; cbn; [lia|]. rewrite app_length. specialize (IH (i + 1)). destruct (f (c_role c)); cbn; lia. Qed.

Lemma chans_run h ind : forall cs i s rest,
  conf_ok h -> full s -> (i + length cs <= 49)%nat -> (length (f_vec s) <= i)%nat -> (length (f_dir s) <= i)%nat ->
  (forall j, (i <= j)%nat -> nth j (f_new s) 0 = 0) ->
  (forall j c o, nth_error cs j = Some c -> nth_error (f_ch s) (i + j) = Some o ->
     role_ok h ind o (c_role c) /\ amp_ok h ind c /\ 1 <= c_gain c <= 65) ->
  exists s', runA (forR (length cs) i (chan_one h (Z.b2z ind)) s)
    (concat (map (fun c => role_bits h ind (c_role c) ++ gain_bits h ind c) cs) ++ rest) = Done (Ok s', rest) /\
    full s' /\ inv h ind i cs s s'.
Proof.
  induction cs as [|c cs IH]; intros i s rest Hc Hf Hi Hv Hd Hz Hok.
  - exists s. split; [reflexivity|]. split; [exact Hf|]. repeat split; cbn [numbers map In].
    + intros [|j] c E; discriminate E.
    + rewrite app_nil_r. reflexivity.
    + rewrite app_nil_r. reflexivity.
    + auto.
    + intros [H|(_ & n & m & p & E & _)]; [exact H|]. destruct (j - i)%nat; discriminate E.
    + auto.
    + intros [H|(_ & [])]; exact H.
    + auto.
    + intros [H|(_ & [])]; exact H.
  - cbn [length] in Hi. destruct Hf as ((L1 & L2 & L3) & L4 & L5 & L6) eqn:Ef. pose proof Hf as Hf'. clear Ef.
    destruct (nth_error (f_ch s) i) as [o|] eqn:Eo. 2: { apply nth_error_None in Eo. lia. }
    destruct (nth_error (f_pt s) i) as [pt|] eqn:Et. 2: { apply nth_error_None in Et. lia. }
    destruct (nth_error (f_pq s) i) as [pq|] eqn:Eq. 2: { apply nth_error_None in Eq. lia. }
    destruct (Hok O c o eq_refl) as (Hr & Ha & Hg). { rewrite Nat.add_0_r. exact Eo. }
    cbn [length forR map concat]. rewrite runA_bind, <- !app_assoc.
    rewrite (chan_run h ind i s o pt pq c) by (try assumption; lia). cbv beta iota.
    set (s1 := step h ind i o pt pq c s).
    assert (F1 : full s1) by (apply step_full; [lia|exact Hr|exact Hf']).
    assert (N1 : forall j, (i <= j)%nat -> nth j (f_new s1) 0 = 1 <-> nth j (f_new s) 0 = 1 \/ new_at h ind s i [c] j).
    { intros j _. apply new_iff; [lia|apply Hz; lia|exact Et]. }
    destruct (IH (S i) s1 rest) as (s' & E & F & I); try assumption.
    + lia.
    + unfold s1, step. cbn [f_vec]. rewrite app_length. destruct (is_vec (c_role c)); cbn; lia.
    + unfold s1, step. cbn [f_dir]. rewrite app_length. destruct (is_dir (c_role c)); cbn; lia.
    + intros j Hj. unfold s1, step. cbn [f_new]. destruct (c_role c); cbn [new_set]; try (apply Hz; lia).
      rewrite put_nth by lia. destruct (Nat.eqb_spec i j); [lia|]. apply Hz. lia.
    + intros j c' o' E1 E2. apply (Hok (S j) c' o' E1). rewrite <- E2. unfold s1, step. cbn [f_ch].
      rewrite put_other by lia. f_equal. lia.
    + exists s'. split; [exact E|]. split; [exact F|].
      destruct I as (I1 & I2 & I3 & I4 & I5 & I6 & I7 & I8 & I9).
      assert (P : f_pt s1 = f_pt s) by reflexivity. assert (Q : f_pq s1 = f_pq s) by reflexivity.
      unfold inv. rewrite <- P, <- Q. split; [exact I1|]. split; [exact I2|]. split; [|split; [|split; [|split; [|split; [|split]]]]].
      * intros j Hj. cbn [length] in Hj. rewrite I3 by lia. unfold s1, step. cbn [f_ch]. apply put_other; lia.
      * intros [|j] c' E'.
        -- injection E' as <-. rewrite Nat.add_0_r. exists o, pq. eexists. split; [exact Eo|]. split; [exact Eq|]. split.
           { rewrite I3 by lia. unfold s1, step. cbn [f_ch]. apply put_same. lia. }
           split; [|split]; [apply (held_exp h ind), Hr|apply (held_exp h ind), Hr|]. repeat split.
        -- cbn [nth_error] in E'. destruct (I4 j c' E') as (o' & pq' & k & A1 & A2 & A3 & A4).
           replace (i + S j)%nat with (S i + j)%nat by lia. exists o', pq', k.
           split; [|split; [exact A2|split; [exact A3|exact A4]]].
           rewrite <- A1. unfold s1, step. cbn [f_ch]. symmetry. apply put_other; lia.
      * rewrite I5. unfold s1, step. cbn [f_vec numbers]. rewrite <- app_assoc. do 3 f_equal. lia.
      * rewrite I6. unfold s1, step. cbn [f_dir numbers]. rewrite <- app_assoc. do 3 f_equal. lia.
      * intros j. rewrite I7. unfold s1 at 1, step. cbn [f_new]. rewrite (new_iff h ind i s c pt) by (try assumption; try lia; apply Hz; lia).
        unfold new_at. rewrite P. split.
        -- intros [[A|(A & n & m & p & B & C)]|(A & n & m & p & B & C)]; [auto|right..].
           ++ destruct (j - i)%nat as [|q] eqn:D; [|destruct q; discriminate B]. split; [lia|]. exists n, m, p. split; [exact B|exact C].
           ++ split; [lia|]. exists n, m, p. replace (j - i)%nat with (S (j - S i)) by lia. split; [exact B|exact C].
        -- intros [A|(A & n & m & p & B & C)]; [auto|]. destruct (j - i)%nat as [|q] eqn:D.
           ++ left. right. split; [lia|]. exists n, m, p. split; [exact B|exact C].
           ++ right. split; [lia|]. exists n, m, p. replace (j - S i)%nat with q by lia. split; [exact B|exact C].
      * intros x. rewrite I8. unfold s1, step. cbn [f_fade map In]. rewrite (fade_iff h ind o 1 _ _ 49) by (try assumption; lia).
        split; [intros [[?|(? & ?)]|(? & ?)]|intros [?|(? & [?|?])]]; auto.
      * intros x. rewrite I9. unfold s1, step. cbn [f_nontr map In]. rewrite (fade_iff h ind o 0 _ _ 50) by (try assumption; lia).
        split; [intros [[?|(? & ?)]|(? & ?)]|intros [?|(? & [?|?])]]; auto.
Qed.

Definition same_rest (s s' : hfs) : Prop :=
  f_pt s' = f_pt s /\ f_pq s' = f_pq s /\ f_new s' = f_new s /\ f_fade s' = f_fade s /\ f_nontr s' = f_nontr s /\
  f_vec s' = f_vec s /\ f_dir s' = f_dir s.
Lemma rest_run h ind : forall rs i s rest,
  conf_ok h -> length (f_ch s) = 49%nat -> (i + length rs <= 49)%nat ->
  (forall c, In c rs -> amp_ok h ind c /\ 1 <= c_gain c) ->
  exists s', runA (forR (length rs) i (chan_rest h (Z.b2z ind)) s) (concat (map (gain_bits h ind) rs) ++ rest) = Done (Ok s', rest) /\
    same_rest s s' /\
    (forall j, (j < i)%nat \/ (i + length rs <= j)%nat -> nth_error (f_ch s') j = nth_error (f_ch s) j) /\
    (forall j c, nth_error rs j = Some c -> exists o k,
     nth_error (f_ch s) (i + j) = Some o /\ nth_error (f_ch s') (i + j) = Some k /\
     k_amp k = (if ind then c_amp c else k_amp o) /\ k_gain k = c_gain c /\ k_exc k = Z.b2z (c_exc c)).
Proof.
  induction rs as [|c rs IH]; intros i s rest Hc L Hi Hok.
  - exists s. split; [reflexivity|]. split; [repeat split|]. split; [reflexivity|]. intros [|j] c E; discriminate E.
  - cbn [length] in Hi. destruct (nth_error (f_ch s) i) as [o|] eqn:Eo. 2: { apply nth_error_None in Eo. lia. }
    destruct (Hok c (or_introl eq_refl)) as (Ha & Hg).
    cbn [length forR map concat]. rewrite runA_bind, <- !app_assoc.
    assert (R : forall r, runA (chan_rest h (Z.b2z ind) i s) (gain_bits h ind c ++ r) =
      Done (Ok (mkHf (put (f_ch s) i (mkHc (k_type o) (k_trans o) (k_aidx o) (k_q o) (k_dir o)
         (if ind then c_amp c else k_amp o) (c_gain c) (Z.b2z (c_exc c)))) (f_pt s) (f_pq s) (f_new s) (f_fade s) (f_nontr s) (f_vec s) (f_dir s)), r)).
    { intros r. unfold chan_rest. rewrite (runA_aget _ _ o) by (rewrite ?Nat2Z.id; try lia; assumption).
      assert (A : forall k, runA (amp <- (if Z.b2z ind =? 0 then Ret (k_amp o) else amp_part h) ;; k amp) (gain_bits h ind c ++ r)
       = @runA (res hfs) (k (if ind then c_amp c else k_amp o)) (repeat false (Z.to_nat (c_gain c - 1)) ++ true :: c_exc c :: r)).
      { intros k. unfold gain_bits. destruct ind; cbn [Z.b2z].
        - change (1 =? 0) with false. cbv iota. rewrite runA_bind, <- !app_assoc.
          destruct Hc as (_ & _ & _ & _ & _ & Hg1 & Hco). rewrite amp_run by (try assumption; apply Ha; reflexivity). reflexivity.
        - change (0 =? 0) with true. cbv iota. cbn [bind app]. rewrite <- app_assoc. reflexivity. }
      rewrite A. rewrite runA_bind, gain_run by lia. rewrite rb1, runA_aset by lia. rewrite Nat2Z.id. reflexivity. }
    rewrite R. cbv beta iota. match goal with |- context [forR _ _ _ ?x] => set (s1 := x) end.
    destruct (IH (S i) s1 rest) as (s' & E & Sm & I3 & I4); try assumption.
    + unfold s1. cbn [f_ch]. rewrite put_len; lia.
    + lia.
    + intros c' Hin. apply Hok. right. exact Hin.
    + exists s'. split; [exact E|]. split; [exact Sm|]. split.
      * intros j Hj. cbn [length] in Hj. rewrite I3 by lia. unfold s1. cbn [f_ch]. apply put_other; lia.
      * intros [|j] c' E'.
        -- injection E' as <-. rewrite Nat.add_0_r. exists o. eexists. split; [exact Eo|]. split.
           { rewrite I3 by lia. unfold s1. cbn [f_ch]. apply put_same. lia. } repeat split.
        -- cbn [nth_error] in E'. destruct (I4 j c' E') as (o' & k & A1 & A2 & A3).
           replace (i + S j)%nat with (S i + j)%nat by lia. exists o', k. split; [|split; [exact A2|exact A3]].
           rewrite <- A1. unfold s1. cbn [f_ch]. symmetry. apply put_other; lia.
Qed.

Lemma repeat0 n j : nth j (repeat 0 n) 0 = 0.
Proof. revert j. induction n as [|n IH]; intros [|j]; cbn; auto. Qed.

Lemma side_run h ind s cs rs rest :
  conf_ok h -> state_ok s -> frame_ok h ind s cs rs -> (forall c, In c cs -> low48 h (c_role c)) ->
  exists s', runA (hoa_side h s) (frame_bits h ind cs rs ++ rest) = Done (Ok (Z.b2z ind, s'), rest) /\
    state_ok s' /\ frame_held h ind s cs rs s'.
Proof.
  intros Hc (L1 & L2 & L3) (Lc & Lr & Hok & Hrs) Hlow. unfold hoa_side, frame_bits. cbn [app]. rewrite rb1. cbv zeta.
  pose proof Hc as ((A1 & A2) & A3 & _).
  match goal with |- context [forR _ 0 _ ?x] => set (s0 := x) end.
  destruct (chans_run h ind cs 0 s0 (concat (map (gain_bits h ind) rs) ++ rest)) as (s1 & E1 & (F1 & F2) & I); try assumption.
  - repeat split; assumption.
  - lia.
  - cbn. lia.
  - cbn. lia.
  - intros j _. apply repeat0.
  - intros j c o E1 E2. destruct (Hok j c o E1 E2) as (B1 & B2). split; [|exact B2].
    apply legal_ok; [exact B1|]. apply Hlow. exact (nth_error_In _ _ E1).
  - destruct I as (I1 & I2 & I3 & I4 & I5 & I6 & I7 & I8 & I9).
    rewrite runA_bind, <- Lc, <- app_assoc, E1. cbv beta iota.
    destruct F1 as (M1 & M2 & M3).
    destruct (rest_run h ind rs (length cs) s1 rest) as (s2 & E2 & Sm & J3 & J4); try assumption. { lia. }
    replace (Z.to_nat (h_ntc h) - length cs)%nat with (length rs) by lia.
    rewrite runA_bind, E2. exists s2. split; [reflexivity|].
    destruct Sm as (S1 & S2 & S3 & S4 & S5 & S6 & S7).
    assert (LL : length (f_ch s2) = 49%nat).
    { assert (forall j, (j < 49)%nat <-> nth_error (f_ch s2) j <> None).
      { intros j. destruct (Nat.lt_ge_cases j (length cs)) as [C|C].
        - rewrite J3 by lia. rewrite nth_error_Some. lia.
        - destruct (Nat.lt_ge_cases j (length cs + length rs)) as [D|D].
          + destruct (nth_error rs (j - length cs)) as [c|] eqn:E. 2: { apply nth_error_None in E. lia. }
            destruct (J4 _ _ E) as (o & k & B1 & B2 & _). replace (length cs + (j - length cs))%nat with j in * by lia.
            rewrite B2. split; [discriminate|]. intros _. lia.
          + rewrite J3 by lia. rewrite nth_error_Some. lia. }
      destruct (Nat.lt_trichotomy (length (f_ch s2)) 49) as [C|[C|C]]; [|exact C|].
      - exfalso. apply (H (length (f_ch s2))); [exact C|]. apply nth_error_None. lia.
      - assert (D : nth_error (f_ch s2) 49 <> None) by (apply nth_error_Some; lia). apply H in D. lia. }
    split. { split; [exact LL|]. rewrite S1, S2. split; assumption. }
    split; [|split; [|split; [|split; [|split; [|split]]]]].
    + intros i c Ei. destruct (I4 i c Ei) as (o & pq & k & B1 & B2 & B3 & B4). cbn [plus] in *.
      exists o, pq, k. split; [exact B1|]. split; [exact B2|]. split; [|exact B4].
      rewrite J3, B3; [reflexivity|]. left. apply nth_error_Some. rewrite Ei. discriminate.
    + intros i c Ei. destruct (J4 i c Ei) as (o & k & B1 & B2 & B3). exists o, k. split; [|split; [exact B2|exact B3]].
      rewrite <- B1. rewrite I3 by (right; lia). reflexivity.
    + rewrite S6, I5. reflexivity.
    + rewrite S7, I6. reflexivity.
    + intros i. rewrite S3, I7. unfold s0 at 1. cbn [f_new]. rewrite repeat0. unfold new_at. rewrite Nat.sub_0_r. split.
      * intros [H|(_ & H)]; [discriminate H|exact H].
      * intros H. right. split; [lia|exact H].
    + intros x. rewrite S4, I8. unfold s0. cbn [f_fade]. rewrite repeat0. split; [intros [H|H]; [discriminate H|exact H]|auto].
    + intros x. rewrite S5, I9. unfold s0. cbn [f_nontr]. rewrite repeat0. split; [intros [H|H]; [discriminate H|exact H]|auto].
Qed.

(** ** Every configuration the decoder accepts *)
Lemma accepted_conf h0 h : 0 <= h_ntc h0 <= 49 -> hoa_ok h0 h -> conf_ok h.
Proof.
  intros Hn [Ho Hc Hnt Ha Han Hmc Had Hmx (Hma & Hma0) Hfull Hdob (Hq & Hnv) Haab Hapb _ Hmg Hgc _ _ _].
  assert (C : 1 <= h_coef h <= 49) by (rewrite Hc; nia).
  assert (O : -1 <= h_maxord h <= 14).
  { destruct (Z.eq_dec (h_minamb h) (h_order h)) as [E|N]; [rewrite (Hfull E); lia|].
    destruct (Hdob ltac:(lia)) as (D1 & D2 & D3). assert (Z.log2_up (h_order h - h_minamb h + 1) <= 3).
    { change 3 with (Z.log2_up 8). apply Z.log2_up_le_mono. lia. }
    assert (2 ^ h_dob h <= 2 ^ 3) by (apply Z.pow_le_mono_r; lia). change (2 ^ 3) with 8 in *. lia. }
  assert (M : 0 <= h_maxadd h <= 225) by (rewrite Hma, Hmx, Hmc in *; nia).
  assert (Q : 0 <= h_vqb h <= 3).
  { rewrite Hq. split; [apply Z.log2_up_nonneg|]. change 3 with (Z.log2_up (Z.log2_up 50)).
    apply Z.log2_up_le_mono, Z.log2_up_le_mono. lia. }
  assert (2 ^ h_vqb h <= 2 ^ 3) by (apply Z.pow_le_mono_r; lia). change (2 ^ 3) with 8 in *.
  assert (P : 0 <= h_minco h) by (rewrite Hmc; nia).
  repeat split; try lia.
  - rewrite Haab. apply Z.log2_up_nonneg.
  - rewrite Haab. apply Z.le_trans with (Z.log2_up 225); [apply Z.log2_up_le_mono; lia|vm_compute; discriminate].
  - rewrite Haab. destruct (Z.leb_spec (h_maxadd h) 1) as [L|L].
    + pose proof (Z.log2_up_nonneg (h_maxadd h)). assert (0 < 2 ^ Z.log2_up (h_maxadd h)) by (apply Z.pow_pos_nonneg; lia). lia.
    + apply Z.log2_up_spec. exact L.
  - rewrite Hgc. apply Z.log2_up_nonneg.
  - rewrite Hgc. assert (K : Z.log2_up (3 * h_coef h / 2) <= Z.log2_up 147).
    { apply Z.log2_up_le_mono. apply Z.div_le_upper_bound; lia. }
    change (Z.log2_up 147) with 8 in K.
    apply Z.le_trans with (Z.log2_up 16); [apply Z.log2_up_le_mono; lia|vm_compute; discriminate].
Qed.
