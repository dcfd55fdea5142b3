(** * BitWrite: the bit writer (decoder/ia_core_coder_bitbuffer.c:292-412) *)

From Coq Require Import ZArith List Lia Bool.
From Verif Require Import Bits BitBuf.
Import ListNotations.
Open Scope Z_scope.

(** ia_write_bit_buf_struct (ia_core_coder_bitbuffer.h): [w_data] is the memory from
    [ptr_bit_buf_base] to [ptr_bit_buf_end], [w_ptr] is [ptr_write_next] relative to
    the base, [w_pos] is [write_position], [w_cnt] is [cnt_bits].  The unused
    [ptr_read_next], [read_position] and [size] are left out. *)
Record wbuf := mkW { w_data : list Z; w_ptr : Z; w_pos : Z; w_cnt : Z }.

(** impeghd_create_write_bit_buffer with init = 1, bitbuffer.c:292-310. *)
Definition wfresh (d : list Z) : wbuf := mkW d 0 7 0.

(** Store to element [i] of an array. *)
Definition upd (l : list Z) (i : Z) (v : Z) : list Z :=
  firstn (Z.to_nat i) l ++ v :: skipn (S (Z.to_nat i)) l.

(** bitbuffer.c:343-363: the loop of impeghd_write_bits_buf.  [fuel] is only the
    recursion measure of the model. *)
Fixpoint wr_loop (fuel : nat) (v n : Z) (d : list Z) (ptr pos : Z) : outcome (list Z * Z * Z) :=
  if n =? 0 then Done (d, ptr, pos) else
  match fuel with
  | O => UB UFuel
  | S f =>
    let b := if pos + 1 <? n then pos + 1 else n in
    let sh := pos + 1 - b in
    match get_byte d ptr, shl32 v (32 - n) with
    | None, _ => UB UOob
    | _, None => UB UShift
    | Some old, Some t =>
      match shr32 t (32 - b) with
      | None => UB UShift
      | Some x =>
        let cleared := u8 (Z.land old (Z.lnot ((2 ^ b - 1) * 2 ^ sh))) in
        let byte := u8 (Z.lor cleared (u8 (u32 (x * 2 ^ sh)))) in
        let d' := upd d ptr byte in
        let pos' := pos - b in
        if pos' <? 0 then
          let p := ptr + 1 in
          wr_loop f v (n - b) d'
            (if Z.of_nat (length d) - 1 <? p then 0 else p) (pos' + 8)
        else wr_loop f v (n - b) d' ptr pos'
      end
    end
  end.

(** impeghd_write_bits_buf, bitbuffer.c:324-369 (non-NULL buffer; the returned
    number of bits is [n] itself). *)
Definition write_bits (v n : Z) (s : wbuf) : outcome wbuf :=
  match wr_loop (Z.to_nat n) v n (w_data s) (w_ptr s) (w_pos s) with
  | Done (d, p, b) => Done (mkW d p b (w_cnt s + n))
  | Jmp c => Jmp c
  | UB r => UB r
  end.

(** impeghd_write_escape_value, bitbuffer.c:385-412.  Returns the bit count. *)
Definition write_escape (value n1 n2 n3 : Z) (s : wbuf) : outcome (Z * wbuf) :=
  let m1 := 2 ^ n1 - 1 in
  let e1 := if value <? m1 then value else m1 in
  match write_bits e1 n1 s with
  | Done s1 =>
    if e1 =? m1 then
      let value := u32 (value - e1) in
      let m2 := 2 ^ n2 - 1 in
      let e2 := if value <? m2 then value else m2 in
      match write_bits e2 n2 s1 with
      | Done s2 =>
        if e2 =? m2 then
          let value := u32 (value - e2) in
          let m3 := 2 ^ n3 - 1 in
          let e3 := if value <? m3 then value else m3 in
          match write_bits e3 n3 s2 with
          | Done s3 => Done (n1 + n2 + n3, s3)
          | Jmp c => Jmp c | UB r => UB r
          end
        else Done (n1 + n2, s2)
      | Jmp c => Jmp c | UB r => UB r
      end
    else Done (n1, s1)
  | Jmp c => Jmp c | UB r => UB r
  end.

(** A sequence of writes, as an application performs them. *)
Fixpoint write_all (fs : list (nat * Z)) (s : wbuf) : outcome wbuf :=
  match fs with
  | [] => Done s
  | (n, v) :: r =>
    match write_bits v (Z.of_nat n) s with
    | Done s' => write_all r s'
    | Jmp c => Jmp c
    | UB r => UB r
    end
  end.

(** ** Proofs *)

Lemma bits_of_ext n u v :
  (forall i, 0 <= i < Z.of_nat n -> Z.testbit u i = Z.testbit v i) ->
  bits_of n u = bits_of n v.
Proof.
  induction n; intros H; [reflexivity|]. cbn [bits_of]. f_equal.
  - apply H; lia.
  - apply IHn. intros; apply H; lia.
Qed.

Lemma bits_of_split a b v :
  bits_of (a + b) v = bits_of a (v / 2 ^ Z.of_nat b) ++ bits_of b v.
Proof.
  induction a; [reflexivity|]. cbn [Nat.add bits_of app]. f_equal; [|exact IHa].
  rewrite <- Z.shiftr_div_pow2 by lia. rewrite Z.shiftr_spec by lia. f_equal; lia.
Qed.

Lemma testbit_u8 v i : 0 <= i -> Z.testbit (u8 v) i = (i <? 8) && Z.testbit v i.
Proof.
  intros Hi. unfold u8, to_u. destruct (Z.ltb_spec i 8).
  - rewrite Z.mod_pow2_bits_low by lia. reflexivity.
  - rewrite Z.mod_pow2_bits_high by lia. reflexivity.
Qed.

Lemma testbit_ones_sh b sh i :
  0 <= b -> 0 <= sh -> 0 <= i ->
  Z.testbit ((2 ^ b - 1) * 2 ^ sh) i = (sh <=? i) && (i <? sh + b).
Proof.
  intros. destruct (Z.leb_spec sh i).
  - rewrite Z.mul_pow2_bits by lia.
    replace (2 ^ b - 1) with (Z.ones b) by (rewrite Z.ones_equiv; lia).
    destruct (Z.ltb_spec i (sh + b)).
    + rewrite Z.ones_spec_low by lia. reflexivity.
    + rewrite Z.ones_spec_high by lia. reflexivity.
  - rewrite Z.mul_pow2_bits_low by lia. reflexivity.
Qed.

(** The byte update replaces exactly the window [o, o+b) of the byte. *)
Lemma byte_window (o b r : nat) old x :
  (o + b + r = 8)%nat -> 0 <= x < 2 ^ Z.of_nat b ->
  let sh := Z.of_nat r in
  let cleared := u8 (Z.land old (Z.lnot ((2 ^ Z.of_nat b - 1) * 2 ^ sh))) in
  let byte := u8 (Z.lor cleared (u8 (u32 (x * 2 ^ sh)))) in
  bits_of 8 byte =
    firstn o (bits_of 8 old) ++ bits_of b x ++ skipn (o + b) (bits_of 8 old).
Proof.
  intros HS Hx sh cleared byte.
  assert (X : u8 (u32 (x * 2 ^ sh)) = x * 2 ^ sh).
  { assert (x * 2 ^ sh < 2 ^ 8).
    { apply Z.lt_le_trans with (2 ^ Z.of_nat b * 2 ^ sh).
      - assert (P := pow2_pos sh ltac:(unfold sh; lia)). nia.
      - rewrite <- Z.pow_add_r by (unfold sh; lia). apply Z.pow_le_mono_r; unfold sh; lia. }
    assert (P := pow2_pos sh ltac:(unfold sh; lia)).
    assert (0 <= x * 2 ^ sh) by nia.
    unfold u32, u8. rewrite (to_u_id 32) by (split; [lia|]; eapply Z.lt_le_trans; [eassumption|cbn; lia]).
    apply to_u_id; lia. }
  assert (T : forall i, 0 <= i < 8 ->
    Z.testbit byte i =
    if (sh <=? i) && (i <? sh + Z.of_nat b) then Z.testbit x (i - sh) else Z.testbit old i).
  { intros i Hi. unfold byte. rewrite testbit_u8 by lia.
    replace (i <? 8) with true by (symmetry; apply Z.ltb_lt; lia). cbn [andb].
    rewrite Z.lor_spec, X. unfold cleared. rewrite testbit_u8 by lia.
    replace (i <? 8) with true by (symmetry; apply Z.ltb_lt; lia). cbn [andb].
    rewrite Z.land_spec, Z.lnot_spec by lia.
    rewrite testbit_ones_sh by (unfold sh; lia).
    destruct (Z.leb_spec sh i); cbn [andb].
    - rewrite (Z.mul_pow2_bits x) by (unfold sh; lia).
      destruct (Z.ltb_spec i (sh + Z.of_nat b)); cbn [negb].
      + rewrite andb_false_r. reflexivity.
      + rewrite andb_true_r.
        replace (Z.testbit x (i - sh)) with false; [apply orb_false_r|].
        symmetry. rewrite Z.testbit_false by (unfold sh in *; lia).
        rewrite Z.div_small; [reflexivity|]. split; [lia|].
        eapply Z.lt_le_trans; [apply Hx|]. apply Z.pow_le_mono_r; lia.
    - rewrite (Z.mul_pow2_bits_low x) by (unfold sh in *; lia).
      rewrite andb_true_r, orb_false_r. reflexivity. }
  assert (E8 : (8 = o + (b + r))%nat) by lia.
  assert (F1 : firstn o (bits_of 8 old) = bits_of o (old / 2 ^ Z.of_nat (b + r))).
  { rewrite E8, bits_of_split. apply firstn_bits_app. }
  assert (F2 : skipn (o + b) (bits_of 8 old) = bits_of r old).
  { rewrite E8, Nat.add_assoc, bits_of_split. apply skipn_bits_app. }
  rewrite F1, F2. rewrite E8, bits_of_split, bits_of_split.
  rewrite <- !Z.shiftr_div_pow2 by lia.
  f_equal; [|f_equal]; apply bits_of_ext; intros i Hi.
  - rewrite !Z.shiftr_spec by lia. rewrite T by (unfold sh; lia).
    replace (i + Z.of_nat (b + r) <? sh + Z.of_nat b) with false
      by (symmetry; apply Z.ltb_ge; unfold sh; lia).
    rewrite andb_false_r. reflexivity.
  - rewrite Z.shiftr_spec by lia. rewrite T by (unfold sh; lia).
    replace ((sh <=? i + Z.of_nat r) && (i + Z.of_nat r <? sh + Z.of_nat b)) with true
      by (symmetry; apply andb_true_intro; split; [apply Z.leb_le|apply Z.ltb_lt]; unfold sh; lia).
    f_equal. unfold sh; lia.
  - rewrite T by (unfold sh; lia).
    replace (sh <=? i) with false by (symmetry; apply Z.leb_gt; unfold sh; lia). reflexivity.
Qed.

Lemma upd_length l i v : 0 <= i < Z.of_nat (length l) -> length (upd l i v) = length l.
Proof.
  intros H. unfold upd. rewrite app_length, firstn_length. cbn [length].
  rewrite skipn_length. lia.
Qed.

Lemma upd_bytes l i v : are_bytes l -> is_byte v -> are_bytes (upd l i v).
Proof.
  intros Hl Hv. unfold upd, are_bytes. apply Forall_app. split.
  - apply Forall_forall. intros x Hx. eapply Forall_forall in Hl; [exact Hl|].
    rewrite <- (firstn_skipn (Z.to_nat i) l). apply in_or_app; auto.
  - constructor; auto. apply Forall_forall. intros x Hx. eapply Forall_forall in Hl; [exact Hl|].
    rewrite <- (firstn_skipn (S (Z.to_nat i)) l). apply in_or_app; auto.
Qed.

(** Effect of one byte update on the bit string of the buffer. *)
Lemma upd_window d ptr old byte (o b : nat) (w : list bool) :
  get_byte d ptr = Some old -> (o + b <= 8)%nat -> length w = b ->
  bits_of 8 byte = firstn o (bits_of 8 old) ++ w ++ skipn (o + b) (bits_of 8 old) ->
  let k := (8 * Z.to_nat ptr + o)%nat in
  bytes_bits (upd d ptr byte) =
    firstn k (bytes_bits d) ++ w ++ skipn (k + b) (bytes_bits d).
Proof.
  intros G Hob Hw HB k. apply get_byte_split in G as [R HS].
  set (p := Z.to_nat ptr) in *.
  replace (Z.to_nat (ptr + 1)) with (S p) in HS by (unfold p; lia).
  unfold upd. fold p. rewrite bytes_bits_app.
  change (bytes_bits (byte :: skipn (S p) d)) with (bits_of 8 byte ++ bytes_bits (skipn (S p) d)).
  rewrite HB.
  assert (ED : bytes_bits d = bytes_bits (firstn p d) ++ bits_of 8 old ++ bytes_bits (skipn (S p) d)).
  { rewrite <- (firstn_skipn p d) at 1. rewrite bytes_bits_app, HS. reflexivity. }
  assert (LP : length (bytes_bits (firstn p d)) = (8 * p)%nat).
  { rewrite bytes_bits_length, firstn_length. unfold p; lia. }
  rewrite ED.
  rewrite firstn_app, LP.
  replace (k - 8 * p)%nat with o by (unfold k; lia).
  rewrite (firstn_all2 (n := k) (bytes_bits (firstn p d))) by (rewrite LP; unfold k; lia).
  rewrite firstn_app, bits_of_length. replace (o - 8)%nat with 0%nat by lia.
  cbn [firstn]. rewrite app_nil_r.
  rewrite skipn_app, LP.
  rewrite (skipn_all2 (bytes_bits (firstn p d))) by (rewrite LP; unfold k; lia).
  replace (k + b - 8 * p)%nat with (o + b)%nat by (unfold k; lia).
  rewrite skipn_app, bits_of_length. replace (o + b - 8)%nat with 0%nat by lia.
  cbn [skipn app]. rewrite <- !app_assoc. reflexivity.
Qed.

(** Position reached after writing; the pointer wraps to the base exactly when the
    buffer is full. *)
Definition wplace (len : nat) (ptr pos k : Z) : Prop :=
  (k < 8 * Z.of_nat len /\ 0 <= ptr /\ 0 <= pos <= 7 /\ 8 * ptr + 7 - pos = k) \/
  (k = 8 * Z.of_nat len /\ ptr = 0 /\ pos = 7).

Lemma wr_loop_ok v : 0 <= v -> forall fuel n d ptr pos k,
  are_bytes d -> 0 <= n <= 32 -> (Z.to_nat n <= fuel)%nat ->
  wplace (length d) ptr pos k -> 0 <= k -> k + n <= 8 * Z.of_nat (length d) ->
  exists d' ptr' pos',
    wr_loop fuel v n d ptr pos = Done (d', ptr', pos') /\
    are_bytes d' /\ length d' = length d /\ wplace (length d) ptr' pos' (k + n) /\
    bytes_bits d' = firstn (Z.to_nat k) (bytes_bits d) ++ bits_of (Z.to_nat n) v ++
                    skipn (Z.to_nat (k + n)) (bytes_bits d).
Proof.
  intros Hv0. induction fuel as [|f IH]; intros n d ptr pos k Hd Hn Hf HP Hk Hlen.
  - assert (n = 0) by lia. subst. exists d, ptr, pos. cbn.
    rewrite Z.add_0_r, firstn_skipn. auto.
  - cbn [wr_loop]. destruct (Z.eqb_spec n 0) as [->|Hn0].
    + exists d, ptr, pos. cbn [Z.to_nat bits_of app]. rewrite Z.add_0_r, firstn_skipn. auto.
    + destruct HP as [(Hkl & Hp & Hpos & Ek)|(Ek & _)]; [|lia].
      set (b := if pos + 1 <? n then pos + 1 else n).
      assert (Hb : 1 <= b <= 8 /\ b <= n /\ b <= pos + 1 /\ (b = n \/ b = pos + 1)).
      { unfold b. destruct (Z.ltb_spec (pos + 1) n); lia. }
      destruct (get_byte_in d ptr ltac:(lia)) as (old & Hold & Hin). rewrite Hold.
      unfold shl32.
      replace ((0 <=? 32 - n) && (32 - n <? 32)) with true
        by (symmetry; apply andb_true_intro; split; [apply Z.leb_le|apply Z.ltb_lt]; lia).
      unfold shr32.
      replace ((0 <=? 32 - b) && (32 - b <? 32)) with true
        by (symmetry; apply andb_true_intro; split; [apply Z.leb_le|apply Z.ltb_lt]; lia).
      set (x := u32 (v * 2 ^ (32 - n)) / 2 ^ (32 - b)).
      assert (Ex : x = (v mod 2 ^ n) / 2 ^ (n - b)).
      { unfold x, u32, to_u.
        replace (2 ^ 32) with (2 ^ n * 2 ^ (32 - n)) by (rewrite <- Z.pow_add_r by lia; f_equal; lia).
        rewrite Z.mul_mod_distr_r by (apply Z.pow_nonzero; lia).
        replace (32 - b) with ((n - b) + (32 - n)) by lia.
        rewrite Z.pow_add_r by lia. apply Z.div_mul_cancel_r; apply Z.pow_nonzero; lia. }
      assert (Hx : 0 <= x < 2 ^ b).
      { rewrite Ex. assert (M := Z.mod_pos_bound v (2 ^ n) ltac:(apply pow2_pos; lia)).
        split; [apply Z.div_pos; [lia|apply pow2_pos; lia]|].
        apply Z.div_lt_upper_bound; [apply pow2_pos; lia|].
        rewrite <- Z.pow_add_r by lia. replace (n - b + b) with n by lia. lia. }
      set (sh := pos + 1 - b).
      set (byte := u8 (Z.lor (u8 (Z.land old (Z.lnot ((2 ^ b - 1) * 2 ^ sh)))) (u8 (u32 (x * 2 ^ sh))))).
      assert (BB : bits_of 8 byte =
         firstn (Z.to_nat (7 - pos)) (bits_of 8 old) ++ bits_of (Z.to_nat b) x ++
         skipn (Z.to_nat (7 - pos) + Z.to_nat b) (bits_of 8 old)).
      { assert (BW := byte_window (Z.to_nat (7 - pos)) (Z.to_nat b) (Z.to_nat sh) old x
                   ltac:(unfold sh; lia)).
        rewrite !Z2Nat.id in BW by (unfold sh; lia). apply BW. lia. }
      assert (WW := upd_window d ptr old byte (Z.to_nat (7 - pos)) (Z.to_nat b)
                      (bits_of (Z.to_nat b) x) Hold ltac:(lia) (bits_of_length _ _) BB).
      cbn zeta in WW.
      replace (8 * Z.to_nat ptr + Z.to_nat (7 - pos))%nat with (Z.to_nat k) in WW by lia.
      set (d1 := upd d ptr byte) in *.
      assert (L1 : length d1 = length d) by (apply upd_length; lia).
      assert (B1 : are_bytes d1).
      { apply upd_bytes; auto. unfold is_byte, byte, u8. apply to_u_range; lia. }
      assert (Fin : forall d' , bytes_bits d' =
          firstn (Z.to_nat (k + b)) (bytes_bits d1) ++ bits_of (Z.to_nat (n - b)) v ++
          skipn (Z.to_nat (k + b + (n - b))) (bytes_bits d1) ->
          bytes_bits d' = firstn (Z.to_nat k) (bytes_bits d) ++ bits_of (Z.to_nat n) v ++
                    skipn (Z.to_nat (k + n)) (bytes_bits d)).
      { intros d' E. rewrite E, WW.
        assert (LK : length (firstn (Z.to_nat k) (bytes_bits d)) = Z.to_nat k).
        { rewrite firstn_length, bytes_bits_length. lia. }
        rewrite !app_assoc. rewrite firstn_app.
        rewrite app_length, LK, bits_of_length.
        replace (Z.to_nat (k + b) - (Z.to_nat k + Z.to_nat b))%nat with 0%nat by lia.
        cbn [firstn]. rewrite app_nil_r.
        rewrite firstn_all2 by (rewrite app_length, LK, bits_of_length; lia).
        rewrite skipn_app.
        rewrite (skipn_all2 (firstn (Z.to_nat k) (bytes_bits d) ++ _))
          by (rewrite app_length, LK, bits_of_length; lia).
        rewrite app_length, LK, bits_of_length. cbn [app].
        rewrite skipn_skipn_add. rewrite <- !app_assoc. f_equal.
        rewrite !app_assoc. f_equal.
        - replace (Z.to_nat n) with (Z.to_nat b + Z.to_nat (n - b))%nat by lia.
          rewrite bits_of_split. f_equal. rewrite Z2Nat.id by lia.
          apply bits_of_inj; [now rewrite !bits_of_length|].
          rewrite !val_bits_of_mod. rewrite Z2Nat.id by lia.
          rewrite (Z.mod_small x) by lia. rewrite Ex.
          replace (2 ^ n) with (2 ^ (n - b) * 2 ^ b) by (rewrite <- Z.pow_add_r by lia; f_equal; lia).
          rewrite Z.rem_mul_r by (try apply pow2_pos; try apply Z.pow_nonzero; lia).
          rewrite (Z.mul_comm (2 ^ (n - b))), Z.div_add by (apply Z.pow_nonzero; lia).
          rewrite (Z.div_small (v mod _)) by (apply Z.mod_pos_bound, pow2_pos; lia). lia.
        - f_equal. lia. }
      assert (Go : forall p2 b2, wplace (length d1) p2 b2 (k + b) ->
        exists d' ptr' pos',
          wr_loop f v (n - b) d1 p2 b2 = Done (d', ptr', pos') /\
          are_bytes d' /\ length d' = length d /\ wplace (length d) ptr' pos' (k + n) /\
          bytes_bits d' = firstn (Z.to_nat k) (bytes_bits d) ++ bits_of (Z.to_nat n) v ++
                    skipn (Z.to_nat (k + n)) (bytes_bits d)).
      { intros p2 b2 HP2.
        destruct (IH (n - b) d1 p2 b2 (k + b)) as (d' & q & c & E1 & E2 & E3 & E4 & E5); auto; try lia.
        exists d', q, c. rewrite L1 in *. replace (k + b + (n - b)) with (k + n) in E4 by lia.
        repeat split; auto; try congruence. }
      destruct (Z.ltb_spec (pos - b) 0).
      * apply Go. rewrite L1.
        destruct (Z.ltb_spec (Z.of_nat (length d) - 1) (ptr + 1)); unfold wplace; lia.
      * apply Go. rewrite L1. unfold wplace. lia.
Qed.

(** Writer invariant: [k] bits written so far are the prefix [pre] of the buffer. *)
Definition winv (s : wbuf) (pre : list bool) : Prop :=
  are_bytes (w_data s) /\ wplace (length (w_data s)) (w_ptr s) (w_pos s) (w_cnt s) /\
  w_cnt s = Z.of_nat (length pre) /\
  firstn (length pre) (bytes_bits (w_data s)) = pre.

Lemma winv_fresh d : are_bytes d -> winv (wfresh d) [].
Proof.
  intros H. unfold winv, wfresh, wplace. cbn [w_data w_ptr w_pos w_cnt length firstn].
  repeat split; auto. destruct d; [right|left]; cbn [length]; lia.
Qed.

Lemma write_bits_ok v n s pre :
  winv s pre -> 0 <= v -> 0 <= n <= 32 ->
  Z.of_nat (length pre) + n <= 8 * Z.of_nat (length (w_data s)) ->
  exists s', write_bits v n s = Done s' /\
    winv s' (pre ++ bits_of (Z.to_nat n) v) /\ length (w_data s') = length (w_data s) /\
    skipn (length pre + Z.to_nat n) (bytes_bits (w_data s')) =
    skipn (length pre + Z.to_nat n) (bytes_bits (w_data s)).
Proof.
  intros (B & P & C & F) Hv Hn Hl. unfold write_bits.
  destruct (wr_loop_ok v Hv (Z.to_nat n) n (w_data s) (w_ptr s) (w_pos s) (w_cnt s))
    as (d' & p & b & E1 & E2 & E3 & E4 & E5); auto; try lia.
  rewrite E1. eexists; split; [reflexivity|].
  unfold winv. cbn [w_data w_ptr w_pos w_cnt].
  assert (Lf : length (firstn (Z.to_nat (w_cnt s)) (bytes_bits (w_data s))) = length pre).
  { rewrite firstn_length, bytes_bits_length. lia. }
  replace (Z.to_nat (w_cnt s)) with (length pre) in * by lia.
  repeat split; auto.
  - rewrite E3. exact E4.
  - rewrite app_length, bits_of_length. lia.
  - rewrite E5, F, app_length, bits_of_length, app_assoc.
    rewrite firstn_app, app_length, bits_of_length, Nat.sub_diag. cbn [firstn].
    rewrite app_nil_r. apply firstn_all2. rewrite app_length, bits_of_length. lia.
  - rewrite E5, F, app_assoc, skipn_app, app_length, bits_of_length, Nat.sub_diag.
    rewrite skipn_all2 by (rewrite app_length, bits_of_length; lia).
    cbn [app skipn]. f_equal. lia.
Qed.

Definition fields_bits (fs : list (nat * Z)) : list bool :=
  flat_map (fun f => bits_of (fst f) (snd f)) fs.

Lemma write_all_ok : forall fs s pre,
  winv s pre -> Forall (fun f => (fst f <= 32)%nat /\ 0 <= snd f) fs ->
  (length pre + length (fields_bits fs) <= 8 * length (w_data s))%nat ->
  exists s', write_all fs s = Done s' /\ winv s' (pre ++ fields_bits fs) /\
             length (w_data s') = length (w_data s).
Proof.
  induction fs as [|[n v] fs IH]; intros s pre HI HF HL.
  - exists s. cbn [fields_bits flat_map]. rewrite app_nil_r. auto.
  - inversion HF as [|? ? [H1 H2] H3]; subst. cbn [fst snd] in *.
    change (fields_bits ((n, v) :: fs)) with (bits_of n v ++ fields_bits fs) in *.
    rewrite app_length, bits_of_length in HL.
    destruct (write_bits_ok v (Z.of_nat n) s pre HI) as (s1 & E1 & I1 & L1 & _); try lia.
    rewrite Nat2Z.id in I1. cbn [write_all]. rewrite E1.
    destruct (IH s1 (pre ++ bits_of n v) I1 H3) as (s2 & E2 & I2 & L2).
    { rewrite app_length, bits_of_length. lia. }
    exists s2. rewrite app_assoc. repeat split; auto; try apply I2; try lia.
Qed.

(** Bits of an escaped value (specification). *)
Definition esc_enc (n1 n2 n3 : nat) (v : Z) : list bool :=
  let m1 := 2 ^ Z.of_nat n1 - 1 in
  let m2 := 2 ^ Z.of_nat n2 - 1 in
  if v <? m1 then bits_of n1 v
  else if v <? m1 + m2 then bits_of n1 m1 ++ bits_of n2 (v - m1)
  else bits_of n1 m1 ++ bits_of n2 m2 ++ bits_of n3 (v - m1 - m2).

Lemma write_escape_ok v (n1 n2 n3 : nat) s pre :
  winv s pre -> (n1 <= 30)%nat -> (n2 <= 30)%nat -> (n3 <= 30)%nat ->
  0 <= v < 2 ^ Z.of_nat n1 - 1 + (2 ^ Z.of_nat n2 - 1) + 2 ^ Z.of_nat n3 ->
  (length pre + n1 + n2 + n3 <= 8 * length (w_data s))%nat ->
  exists s', write_escape v (Z.of_nat n1) (Z.of_nat n2) (Z.of_nat n3) s =
             Done (Z.of_nat (length (esc_enc n1 n2 n3 v)), s') /\
             winv s' (pre ++ esc_enc n1 n2 n3 v) /\ length (w_data s') = length (w_data s).
Proof.
  intros I H1 H2 H3 Hv HL.
  assert (P1 := pow2_pos (Z.of_nat n1) ltac:(lia)).
  assert (P2 := pow2_pos (Z.of_nat n2) ltac:(lia)).
  assert (P3 := pow2_pos (Z.of_nat n3) ltac:(lia)).
  assert (Q1 : 2 ^ Z.of_nat n1 <= 2 ^ 30) by (apply Z.pow_le_mono_r; lia).
  assert (Q2 : 2 ^ Z.of_nat n2 <= 2 ^ 30) by (apply Z.pow_le_mono_r; lia).
  assert (Q3 : 2 ^ Z.of_nat n3 <= 2 ^ 30) by (apply Z.pow_le_mono_r; lia).
  set (m1 := 2 ^ Z.of_nat n1 - 1) in *. set (m2 := 2 ^ Z.of_nat n2 - 1) in *.
  unfold write_escape, esc_enc. fold m1. fold m2. fold (2 ^ Z.of_nat n3).
  set (e1 := if v <? m1 then v else m1).
  destruct (write_bits_ok e1 (Z.of_nat n1) s pre I) as (s1 & E1 & I1 & L1 & _); try lia.
  { unfold e1. destruct (Z.ltb_spec v m1); lia. }
  rewrite E1. rewrite Nat2Z.id in I1.
  destruct (Z.ltb_spec v m1) as [C1|C1]; unfold e1 in *.
  - destruct (Z.eqb_spec v m1); [lia|].
    exists s1. rewrite bits_of_length. auto.
  - rewrite Z.eqb_refl.
    assert (U1 : u32 (v - m1) = v - m1) by (unfold u32; apply to_u_id; change (2^32) with (4 * 2^30); lia).
    rewrite U1.
    set (e2 := if v - m1 <? m2 then v - m1 else m2).
    destruct (write_bits_ok e2 (Z.of_nat n2) s1 _ I1) as (s2 & E2 & I2 & L2 & _); try lia.
    { unfold e2. destruct (Z.ltb_spec (v - m1) m2); lia. }
    { rewrite app_length, bits_of_length. lia. }
    rewrite E2. rewrite Nat2Z.id in I2.
    destruct (Z.ltb_spec (v - m1) m2) as [C2|C2]; unfold e2 in *.
    + replace (v <? m1 + m2) with true by (symmetry; apply Z.ltb_lt; lia).
      destruct (Z.eqb_spec (v - m1) m2); [lia|].
      exists s2. rewrite app_length, !bits_of_length, app_assoc.
      repeat split; try apply I2; try lia. f_equal; f_equal; lia.
    + replace (v <? m1 + m2) with false by (symmetry; apply Z.ltb_ge; lia).
      rewrite Z.eqb_refl.
      assert (U2 : u32 (v - m1 - m2) = v - m1 - m2)
        by (unfold u32; apply to_u_id; change (2^32) with (4 * 2^30); lia).
      rewrite U2.
      set (e3 := if v - m1 - m2 <? 2 ^ Z.of_nat n3 - 1 then v - m1 - m2 else 2 ^ Z.of_nat n3 - 1).
      assert (E3' : e3 = v - m1 - m2).
      { unfold e3. destruct (Z.ltb_spec (v - m1 - m2) (2 ^ Z.of_nat n3 - 1)); lia. }
      destruct (write_bits_ok e3 (Z.of_nat n3) s2 _ I2) as (s3 & E3 & I3 & L3 & _); try lia.
      { rewrite !app_length, !bits_of_length. lia. }
      rewrite E3. rewrite Nat2Z.id in I3.
      exists s3. rewrite !app_length, !bits_of_length. rewrite E3' in I3.
      rewrite <- !app_assoc in I3.
      repeat split; try apply I3; try lia. f_equal; f_equal; lia.
Qed.
