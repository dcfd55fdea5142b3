(** * Lem_ExtRen: the bits the external renderer metadata writers produce *)

From Coq Require Import ZArith List Lia Bool ZifyBool.
From Verif Require Import Bits BitBuf BitWrite Prog Wp Escape F32 Pcm Config Hoa Oam Lem_MhasProps
  Spec_Config Spec_ConfigFull ExtRen Spec_ExtRen.
Import ListNotations.
Open Scope Z_scope.

(** ** Writing never fails and counts every bit *)

Lemma wr_loop_total v : forall fuel n d ptr pos,
  0 <= n <= 32 -> (Z.to_nat n <= fuel)%nat -> 0 <= ptr < Z.of_nat (length d) -> 0 <= pos <= 7 ->
  exists d' ptr' pos', wr_loop fuel v n d ptr pos = Done (d', ptr', pos') /\
    length d' = length d /\ 0 <= ptr' < Z.of_nat (length d) /\ 0 <= pos' <= 7.
Proof.
  induction fuel as [|f IH]; intros n d ptr pos Hn Hf Hp Hs.
  - assert (n = 0) by lia. subst. exists d, ptr, pos. cbn. auto.
  - cbn [wr_loop]. destruct (Z.eqb_spec n 0) as [->|Hn0]; [exists d, ptr, pos; auto|].
    set (b := if pos + 1 <? n then pos + 1 else n).
    assert (Hb : 1 <= b <= 8 /\ b <= n /\ b <= pos + 1).
    { unfold b. destruct (Z.ltb_spec (pos + 1) n); lia. }
    destruct (get_byte_in d ptr ltac:(lia)) as (old & Hold & _). rewrite Hold.
    unfold shl32, shr32.
    replace ((0 <=? 32 - n) && (32 - n <? 32)) with true by lia.
    replace ((0 <=? 32 - b) && (32 - b <? 32)) with true by lia.
    match goal with |- context [BitWrite.upd d ptr ?x] => set (d1 := BitWrite.upd d ptr x) end.
    assert (L1 : length d1 = length d) by (apply upd_length; lia).
    clearbody d1 b.
    destruct (Z.ltb_spec (pos - b) 0).
    + match goal with |- context [wr_loop f v (n - b) d1 ?p ?c] =>
        destruct (IH (n - b) d1 p c) as (d' & p' & c' & E & A1 & A2 & A3) end; try lia.
      { destruct (Z.ltb_spec (Z.of_nat (length d) - 1) (ptr + 1)); lia. }
      exists d', p', c'. rewrite E. repeat split; try congruence; try lia.
    + destruct (IH (n - b) d1 ptr (pos - b)) as (d' & p' & c' & E & A1 & A2 & A3); try lia.
      exists d', p', c'. rewrite E. repeat split; try congruence; try lia.
Qed.

(** The state between writes. *)
Definition winside (s : wbuf) : Prop :=
  0 <= w_ptr s < Z.of_nat (length (w_data s)) /\ 0 <= w_pos s <= 7.
Lemma write_bits_total v n s : 0 <= n <= 32 -> winside s ->
  exists s', write_bits v n s = Done s' /\ winside s' /\ length (w_data s') = length (w_data s) /\
    w_cnt s' = w_cnt s + n.
Proof.
  intros Hn (H1 & H2). unfold write_bits.
  destruct (wr_loop_total v (Z.to_nat n) n (w_data s) (w_ptr s) (w_pos s)) as (d & p & c & E & A & B & C); auto.
  rewrite E. eexists. split; [reflexivity|]. unfold winside. cbn [w_data w_ptr w_pos w_cnt].
  repeat split; try lia.
Qed.

Definition op_ok (o : wop) : Prop :=
  match o with
  | WB _ n => 0 <= n <= 32
  | WE _ a b c => 0 <= a <= 16 /\ 0 <= b <= 16 /\ 0 <= c <= 16
  end.

(** The single writes of a call. *)
Definition op_fields (o : wop) : list (nat * Z) :=
  match o with
  | WB v n => [(Z.to_nat n, u32 v)]
  | WE v a b c =>
    let v := u32 v in
    let m1 := 2 ^ a - 1 in
    if v <? m1 then [(Z.to_nat a, v)] else
    let m2 := 2 ^ b - 1 in
    if v - m1 <? m2 then [(Z.to_nat a, m1); (Z.to_nat b, v - m1)] else
    let m3 := 2 ^ c - 1 in
    [(Z.to_nat a, m1); (Z.to_nat b, m2); (Z.to_nat c, if v - m1 - m2 <? m3 then v - m1 - m2 else m3)]
  end.
Definition obits (l : list wop) : list bool := fields_bits (flat_map op_fields l).

Lemma u32_range v : 0 <= u32 v < 2 ^ 32. Proof. apply to_u_range. lia. Qed.
Lemma pow16 a : 0 <= a <= 16 -> 1 <= 2 ^ a <= 65536.
Proof.
  intros H. split; [assert (P := pow2_pos a ltac:(lia)); lia|].
  change 65536 with (2 ^ 16). apply Z.pow_le_mono_r; lia.
Qed.

Lemma run_op_fields o s : op_ok o -> run_op o s = write_all (op_fields o) s.
Proof.
  destruct o as [v n|v a b c]; cbn [op_ok run_op op_fields].
  - intros H. cbn [write_all]. rewrite Z2Nat.id by lia. destruct (write_bits (u32 v) n s); reflexivity.
  - intros (Ha & Hb & Hc). assert (V := u32_range v). set (w := u32 v) in *. clearbody w.
    assert (A := pow16 a Ha). assert (B := pow16 b Hb). assert (C := pow16 c Hc).
    unfold write_escape. set (m1 := 2 ^ a - 1) in *. set (m2 := 2 ^ b - 1) in *. set (m3 := 2 ^ c - 1) in *.
    assert (A' : 0 <= m1 <= 65535) by lia. assert (B' : 0 <= m2 <= 65535) by lia.
    assert (C' : 0 <= m3 <= 65535) by lia. clear A B C. clearbody m1 m2 m3.
    destruct (Z.ltb_spec w m1).
    + cbn [write_all]. rewrite Z2Nat.id by lia.
      destruct (write_bits w a s); auto. destruct (Z.eqb_spec w m1); [lia|reflexivity].
    + assert (U1 : u32 (w - m1) = w - m1) by (unfold u32; apply to_u_id; lia).
      destruct (Z.ltb_spec (w - m1) m2).
      * cbn [write_all]. rewrite !Z2Nat.id by lia.
        destruct (write_bits m1 a s) as [s1| |]; auto. rewrite Z.eqb_refl, U1.
        destruct (Z.ltb_spec (w - m1) m2); [|lia].
        destruct (write_bits (w - m1) b s1); auto. destruct (Z.eqb_spec (w - m1) m2); [lia|reflexivity].
      * cbn [write_all]. rewrite !Z2Nat.id by lia.
        destruct (write_bits m1 a s) as [s1| |]; auto. rewrite Z.eqb_refl, U1.
        destruct (Z.ltb_spec (w - m1) m2); [lia|].
        destruct (write_bits m2 b s1) as [s2| |]; auto. rewrite Z.eqb_refl.
        assert (U2 : u32 (w - m1 - m2) = w - m1 - m2) by (unfold u32; apply to_u_id; lia).
        rewrite U2. destruct (write_bits _ c s2); reflexivity.
Qed.

Lemma write_all_app x y : forall s,
  write_all (x ++ y) s = match write_all x s with Done s' => write_all y s' | Jmp c => Jmp c | UB r => UB r end.
Proof.
  induction x as [|[n v] x IH]; intros s; [reflexivity|]. cbn [app write_all].
  destruct (write_bits v (Z.of_nat n) s); auto.
Qed.
Lemma run_ops_fields l : Forall op_ok l -> forall s, run_ops l s = write_all (flat_map op_fields l) s.
Proof.
  induction 1 as [|o l Ho Hl IH]; intros s; [reflexivity|].
  cbn [run_ops flat_map]. rewrite write_all_app, run_op_fields by exact Ho.
  destruct (write_all (op_fields o) s); auto.
Qed.

Definition fields_ok (fs : list (nat * Z)) : Prop := Forall (fun f => (fst f <= 32)%nat /\ 0 <= snd f) fs.
Lemma op_fields_ok o : op_ok o -> fields_ok (op_fields o).
Proof.
  destruct o as [v n|v a b c]; cbn [op_ok op_fields].
  - intros H. constructor; [|constructor]. cbn [fst snd]. assert (V := u32_range v). lia.
  - intros (Ha & Hb & Hc). assert (V := u32_range v). set (w := u32 v) in *. clearbody w.
    assert (A := pow16 a Ha). assert (B := pow16 b Hb). assert (C := pow16 c Hc).
    set (m1 := 2 ^ a - 1) in *. set (m2 := 2 ^ b - 1) in *. set (m3 := 2 ^ c - 1) in *.
    assert (A' : 0 <= m1 <= 65535) by lia. assert (B' : 0 <= m2 <= 65535) by lia.
    assert (C' : 0 <= m3 <= 65535) by lia. clear A B C. clearbody m1 m2 m3.
    unfold fields_ok.
    destruct (Z.ltb_spec w m1); [repeat (apply Forall_cons; [cbn [fst snd]; lia|]); apply Forall_nil|].
    destruct (Z.ltb_spec (w - m1) m2); [repeat (apply Forall_cons; [cbn [fst snd]; lia|]); apply Forall_nil|].
    repeat (apply Forall_cons; [cbn [fst snd]; try destruct (Z.ltb_spec (w - m1 - m2) m3); lia|]).
    apply Forall_nil.
Qed.
Lemma ops_fields_ok l : Forall op_ok l -> fields_ok (flat_map op_fields l).
Proof.
  induction 1; [constructor|]. cbn [flat_map]. apply Forall_app. split; [|assumption].
  apply op_fields_ok; assumption.
Qed.

Lemma fields_bits_app x y : fields_bits (x ++ y) = fields_bits x ++ fields_bits y.
Proof. apply flat_map_app. Qed.
Lemma op_size o : op_ok o -> Z.of_nat (length (fields_bits (op_fields o))) = op_bits o.
Proof.
  destruct o as [v n|v a b c]; cbn [op_ok op_fields op_bits].
  - intros H. cbn [fields_bits flat_map fst snd]. rewrite app_nil_r, bits_of_length. lia.
  - intros (Ha & Hb & Hc).
    destruct (u32 v <? 2 ^ a - 1); [|destruct (u32 v - (2 ^ a - 1) <? 2 ^ b - 1)];
      cbn [fields_bits flat_map fst snd]; rewrite ?app_nil_r, ?app_length, ?bits_of_length; lia.
Qed.
Lemma obits_cons o l : obits (o :: l) = fields_bits (op_fields o) ++ obits l.
Proof. unfold obits. cbn [flat_map]. apply fields_bits_app. Qed.
Lemma obits_app x y : obits (x ++ y) = obits x ++ obits y.
Proof. unfold obits. rewrite flat_map_app. apply fields_bits_app. Qed.
Lemma obits_length l : Forall op_ok l -> Z.of_nat (length (obits l)) = size l.
Proof.
  induction 1 as [|o l Ho Hl IH]; [reflexivity|].
  rewrite obits_cons, app_length. cbn [size fold_right]. fold (size l).
  rewrite <- op_size by exact Ho. lia.
Qed.

Lemma write_all_total fs : fields_ok fs -> forall s, winside s ->
  exists s', write_all fs s = Done s' /\ winside s' /\ length (w_data s') = length (w_data s) /\
    w_cnt s' = w_cnt s + Z.of_nat (length (fields_bits fs)).
Proof.
  induction 1 as [|[n v] fs (Hn & _) Hfs IH]; intros s Hs.
  - exists s. cbn [write_all fields_bits flat_map length]. repeat split; auto; try apply Hs; lia.
  - cbn [fst snd] in Hn. cbn [write_all].
    destruct (write_bits_total v (Z.of_nat n) s ltac:(lia) Hs) as (s1 & E & I & L & C). rewrite E.
    destruct (IH s1 I) as (s2 & E2 & I2 & L2 & C2). exists s2.
    change (fields_bits ((n, v) :: fs)) with (bits_of n v ++ fields_bits fs).
    rewrite app_length, bits_of_length. repeat split; auto; try apply I2; try congruence; lia.
Qed.

(** ** The stored payload *)

Lemma store_total ops mem : Forall op_ok ops -> (0 < length mem)%nat ->
  exists d, x_store ops mem = Done (d, (size ops + 7) / 8) /\ length d = length mem.
Proof.
  intros H L. unfold x_store. rewrite run_ops_fields by exact H.
  destruct (write_all_total _ (ops_fields_ok _ H) (wfresh mem)) as (s & E & I & L' & C).
  { unfold winside, wfresh. cbn [w_ptr w_pos w_data]. lia. }
  rewrite E. exists (w_data s). split; [|exact L'].
  rewrite C. cbn [w_cnt wfresh]. fold (obits ops). rewrite obits_length by exact H.
  rewrite Z.shiftr_div_pow2 by lia. change (2 ^ 3) with 8. f_equal.
Qed.
Lemma store_bits ops mem : Forall op_ok ops -> are_bytes mem ->
  size ops <= 8 * Z.of_nat (length mem) ->
  exists d, x_store ops mem = Done (d, (size ops + 7) / 8) /\ length d = length mem /\
    are_bytes d /\ exists rest, bytes_bits d = obits ops ++ rest.
Proof.
  intros H B L. unfold x_store. rewrite run_ops_fields by exact H.
  destruct (write_all_ok (flat_map op_fields ops) (wfresh mem) [] (winv_fresh mem B) (ops_fields_ok _ H))
    as (s & E & (I1 & I2 & I3 & I4) & L').
  { cbn [length wfresh w_data]. fold (obits ops). assert (S1 := obits_length ops H). lia. }
  cbn [app] in *. fold (obits ops) in *. rewrite E. exists (w_data s).
  rewrite I3, obits_length by exact H. rewrite Z.shiftr_div_pow2 by lia. change (2 ^ 3) with 8.
  split; [reflexivity|]. split; [exact L'|]. split; [exact I1|].
  exists (skipn (length (obits ops)) (bytes_bits (w_data s))). rewrite <- I4 at 1. symmetry. apply firstn_skipn.
Qed.

(** ** Reading back single writes *)

Lemma bits_u32 n v : (n <= 32)%nat -> bits_of n (u32 v) = bits_of n v.
Proof.
  intros H. apply bits_of_ext. intros i Hi. unfold u32, to_u. apply Z.mod_pow2_bits_low. lia.
Qed.

Lemma rdW {A} n v (k : Z -> prog A) l r : 0 <= n <= 24 -> 0 <= v < 2 ^ n ->
  runA (bind (rd n) k) (obits (WB v n :: l) ++ r) = runA (k v) (obits l ++ r).
Proof.
  intros Hn Hv. rewrite obits_cons, <- app_assoc. cbn [op_fields fields_bits flat_map fst snd].
  rewrite app_nil_r. rewrite bits_u32 by lia. apply runA_rdb; lia.
Qed.
Lemma rdW0 n v l r : 0 <= n <= 24 -> 0 <= v < 2 ^ n ->
  runA (rd n) (obits (WB v n :: l) ++ r) = Done (v, obits l ++ r).
Proof.
  intros Hn Hv. rewrite obits_cons, <- app_assoc. cbn [op_fields fields_bits flat_map fst snd].
  rewrite app_nil_r. rewrite bits_u32 by lia. apply runA_rd_nobind; lia.
Qed.
Lemma rdWm {A} n v (k : Z -> prog A) l r : 0 <= n <= 24 ->
  runA (bind (rd n) k) (obits (WB v n :: l) ++ r) = runA (k (v mod 2 ^ n)) (obits l ++ r).
Proof.
  intros Hn. rewrite obits_cons, <- app_assoc. cbn [op_fields fields_bits flat_map fst snd].
  rewrite app_nil_r. rewrite bits_u32 by lia. rewrite <- bits_of_mod, Z2Nat.id by lia.
  apply runA_rdb; try lia. apply Z.mod_pos_bound. apply pow2_pos. lia.
Qed.
Lemma sgW {A} n v (k : Z -> prog A) l r : 1 <= n <= 24 -> - 2 ^ (n - 1) <= v < 2 ^ (n - 1) ->
  runA (bind (p_signed n) k) (obits (WB v n :: l) ++ r) = runA (k v) (obits l ++ r).
Proof.
  intros Hn Hv. unfold p_signed. rewrite bind_assoc.
  rewrite obits_cons, <- app_assoc. cbn [op_fields fields_bits flat_map fst snd].
  rewrite app_nil_r. rewrite bits_u32 by lia. rewrite <- bits_of_mod.
  rewrite Z2Nat.id by lia.
  assert (P := pow2_pos (n - 1) ltac:(lia)).
  assert (E : 2 ^ n = 2 * 2 ^ (n - 1)) by (rewrite <- Z.pow_succ_r by lia; f_equal; lia).
  rewrite (runA_rdb n) by (try lia; apply Z.mod_pos_bound; lia).
  cbn [bind]. f_equal. f_equal. rewrite E. set (h := 2 ^ (n - 1)) in *. clearbody h.
  destruct (Z_lt_le_dec v 0).
  - rewrite <- (Z_mod_plus_full v 1), Z.mod_small by lia. destruct (Z.ltb_spec (v + 1 * (2 * h)) h); lia.
  - rewrite Z.mod_small by lia. destruct (Z.ltb_spec v h); lia.
Qed.
Lemma esW {A} a b c v (k : Z -> prog A) l r :
  1 <= a <= 16 -> 1 <= b <= 16 -> 0 <= c <= 16 -> 0 <= v < 2 ^ a - 1 + (2 ^ b - 1) + 2 ^ c ->
  runA (bind (p_esc a b c) k) (obits (WE v a b c :: l) ++ r) = runA (k v) (obits l ++ r).
Proof.
  intros Ha Hb Hc Hv. unfold p_esc. rewrite bind_assoc. rewrite obits_cons, <- app_assoc.
  assert (A' := pow16 a ltac:(lia)). assert (B' := pow16 b ltac:(lia)). assert (C' := pow16 c Hc).
  cbn [op_fields]. assert (U : u32 v = v) by (unfold u32; apply to_u_id; lia). rewrite U.
  set (m1 := 2 ^ a - 1) in *. set (m2 := 2 ^ b - 1) in *. set (m3 := 2 ^ c - 1) in *.
  assert (X1 : 2 ^ a = m1 + 1) by (unfold m1; lia).
  assert (X2 : 2 ^ b = m2 + 1) by (unfold m2; lia).
  assert (X3 : 2 ^ c = m3 + 1) by (unfold m3; lia).
  assert (A2 : 0 <= m1 <= 65535) by lia. assert (B2 : 0 <= m2 <= 65535) by lia.
  assert (C2 : 0 <= m3 <= 65535) by lia.
  clearbody m1 m2 m3.
  destruct (Z.ltb_spec v m1); [|destruct (Z.ltb_spec (v - m1) m2)];
    cbn [fields_bits flat_map fst snd]; rewrite ?app_nil_r, <- ?app_assoc.
  - rewrite runA_rdb by lia. destruct (Z.eqb_spec v m1); [lia|]. reflexivity.
  - rewrite runA_rdb by lia. rewrite Z.eqb_refl. rewrite bind_assoc, runA_rdb by lia.
    destruct (Z.eqb_spec (v - m1) m2); [lia|]. cbn [bind]. repeat f_equal. lia.
  - rewrite runA_rdb by lia. rewrite Z.eqb_refl. rewrite bind_assoc, runA_rdb by lia.
    rewrite Z.eqb_refl, bind_assoc.
    destruct (Z.ltb_spec (v - m1 - m2) m3);
      rewrite runA_rdb by lia; cbn [bind]; f_equal; f_equal; lia.
Qed.

(** ** Composing *)

(** The calls [ops] are read back as [v]. *)
Definition sends {A} (ops : list wop) (p : prog A) (v : A) : Prop :=
  Forall op_ok ops /\ forall r, runA p (obits ops ++ r) = Done (v, r).
Lemma sends_bind {A B} ops p (v : A) (k : A -> prog B) l r : sends ops p v ->
  runA (bind p k) (obits (ops ++ l) ++ r) = runA (k v) (obits l ++ r).
Proof. intros (_ & H). rewrite obits_app, <- app_assoc, runA_bind, H. reflexivity. Qed.

Lemma each_sends {A} (p : prog A) (P : nat -> A -> Prop) body : forall n i k0,
  (forall k, (k < n)%nat -> exists ops v, body (i + Z.of_nat k) = Done ops /\ P (k0 + k)%nat v /\ sends ops p v) ->
  exists ops vs, each n i body = Done ops /\ length vs = n /\
    (forall k v, nth_error vs k = Some v -> P (k0 + k)%nat v) /\ sends ops (many n p) vs.
Proof.
  induction n as [|n IH]; intros i k0 H.
  - exists [], []. split; [reflexivity|]. split; [reflexivity|]. split.
    + intros [|]; discriminate.
    + split; [constructor|reflexivity].
  - destruct (H 0%nat ltac:(lia)) as (o & v & E & Pv & So). rewrite Z.add_0_r in E.
    destruct (IH (i + 1) (S k0)) as (ops & vs & E2 & L & N & S2).
    { intros k Hk. destruct (H (S k) ltac:(lia)) as (o' & v' & E' & P' & S').
      exists o', v'. replace (i + Z.of_nat (S k)) with (i + 1 + Z.of_nat k) in E' by lia.
      replace (S k0 + k)%nat with (k0 + S k)%nat by lia. auto. }
    exists (o ++ ops), (v :: vs). cbn [each]. rewrite E, E2. split; [reflexivity|].
    split; [cbn [length]; lia|]. split.
    + intros [|k] w; cbn [nth_error]; intros K.
      * injection K as <-. exact Pv.
      * apply N in K. replace (k0 + S k)%nat with (S k0 + k)%nat by lia. exact K.
    + destruct So as (O1 & R1). destruct S2 as (O2 & R2). split; [apply Forall_app; auto|].
      intros r. cbn [many]. rewrite obits_app, <- app_assoc, runA_bind, R1, runA_bind, R2. reflexivity.
Qed.

Lemma el_nth {A} (l : list A) (i : nat) x : nth_error l i = Some x -> el l (Z.of_nat i) = Done x.
Proof.
  intros H. unfold el. assert (i < length l)%nat by (apply nth_error_Some; congruence).
  replace ((0 <=? Z.of_nat i) && (Z.of_nat i <? Z.of_nat (length l))) with true by lia.
  rewrite Nat2Z.id, H. reflexivity.
Qed.
Lemma el_ex {A} (l : list A) (i : nat) : (i < length l)%nat ->
  exists x, nth_error l i = Some x /\ el l (Z.of_nat i) = Done x.
Proof.
  intros H. destruct (nth_error l i) as [x|] eqn:E; [|apply nth_error_None in E; lia].
  exists x. split; [reflexivity|]. apply el_nth, E.
Qed.

(** Reading the stored payload. *)
Lemma store_reads {A} ops mem (p : prog A) v : sends ops p v -> are_bytes mem ->
  (0 < length mem)%nat ->
  exists d n, x_store ops mem = Done (d, n) /\ n = (size ops + 7) / 8 /\ length d = length mem /\
    (n <= Z.of_nat (length mem) -> reads p d v).
Proof.
  intros (O & R) B L.
  destruct (store_total ops mem O L) as (d & E & Ld).
  exists d, ((size ops + 7) / 8). split; [exact E|]. split; [reflexivity|]. split; [exact Ld|].
  intros Hn.
  assert (SZ : size ops <= 8 * Z.of_nat (length mem)).
  { assert (M := Z.mod_pos_bound (size ops + 7) 8 ltac:(lia)).
    assert (D := Z.div_mod (size ops + 7) 8 ltac:(lia)). lia. }
  destruct (store_bits ops mem O B SZ) as (d' & E' & L' & B' & rest & X).
  assert (d' = d) by congruence. subst d'.
  specialize (R rest). rewrite <- X, <- rest_fresh in R.
  destruct (exec_of_run _ _ _ _ (wf_fresh d B') R) as (s & E2 & _). exists s. exact E2.
Qed.
