(** * BitBuf: the bitstream reader (decoder/ia_core_coder_bitbuffer.c)

    The reader of ia_core_coder_bitbuffer.c is modelled with its concrete
    representation: a byte pointer (as an index into the byte list), a bit
    position counting 7 (MSB) down to 0, and a counter of remaining bits.
    Unsigned 32-bit wrap-around is explicit ([u32]); undefined behaviour of C
    (access outside the buffer, negative or too large shift) is the outcome
    [UB]; [longjmp] is the outcome [Jmp]. *)

From Coq Require Import ZArith List Lia Bool.
From Verif Require Import Bits.
Import ListNotations.
Open Scope Z_scope.

(** Reasons for undefined behaviour; only used to make witnesses readable. *)
Inductive ubreason : Type :=
| UOob        (* access outside an object *)
| UShift      (* shift amount negative or >= width *)
| UOverflow   (* signed overflow *)
| UDiv        (* division by zero *)
| UUninit     (* read of an indeterminate value *)
| UFuel.      (* model artefact: loop bound of the model exceeded; proved absent *)

Inductive outcome (A : Type) : Type :=
| Done (a : A)
| Jmp (code : Z)
| UB (r : ubreason).
Arguments Done {A}. Arguments Jmp {A}. Arguments UB {A}.

(** impeghd_error_codes.h: IA_MPEGH_DEC_EXE_NONFATAL_INSUFFICIENT_INPUT_BYTES. *)
Definition INSUFFICIENT_INPUT_BYTES : Z := 0x1800.

(** ia_bit_buf_struct (decoder/ia_core_coder_bitbuffer.h): [ptr_bit_buf_base] and
    [ptr_bit_buf_end] are represented by the byte list, [ptr_read_next] by the
    index [r_ptr], [bit_pos] by [r_pos], [cnt_bits] by [r_cnt]. *)
Record rbuf := mkR { r_data : list Z; r_ptr : Z; r_pos : Z; r_cnt : Z }.

(** Dereference of a byte pointer; [None] is an access outside the buffer. *)
Definition get_byte (l : list Z) (i : Z) : option Z :=
  if (0 <=? i) && (i <? Z.of_nat (length l)) then nth_error l (Z.to_nat i) else None.

(** C shifts on UWORD32: undefined unless 0 <= s < 32. *)
Definition shl32 (v s : Z) : option Z :=
  if (0 <=? s) && (s <? 32) then Some (u32 (v * 2 ^ s)) else None.
Definition shr32 (v s : Z) : option Z :=
  if (0 <=? s) && (s <? 32) then Some (v / 2 ^ s) else None.

(** bitbuffer.c:169-177 (read) and 113-121 (show): the while loop that appends
    following bytes.  [fuel] bounds the model's recursion only. *)
Fixpoint rd_loop (fuel : nat) (d : list Z) (ptr pos val : Z) : outcome (Z * Z * Z) :=
  if pos <? -1 then
    match fuel with
    | O => UB UFuel
    | S f =>
      match get_byte d (ptr + 1) with
      | None => UB UOob
      | Some b => rd_loop f d (ptr + 1) (pos + 8) (Z.lor (u32 (val * 2 ^ 8)) b)
      end
    end
  else Done (ptr, pos, val).

(** bitbuffer.c:113-128 / 168-187: everything between the availability check and
    the return: the value and the new pointer and bit position. *)
Definition rd_core (d : list Z) (ptr pos n : Z) : outcome (Z * Z * Z) :=
  match get_byte d ptr with
  | None => UB UOob
  | Some b0 =>
    match rd_loop (Z.to_nat n) d ptr (pos - n) b0 with
    | Done (ptr1, pos1, v1) =>
      let '(ptr2, pos2, v2) :=
        if pos1 =? -1 then (ptr1 + 1, pos1 + 8, u32 (v1 * 2 ^ 8)) else (ptr1, pos1, v1) in
      match shl32 v2 ((31 - n) - pos2) with
      | None => UB UShift
      | Some v3 =>
        match shr32 v3 (32 - n) with
        | None => UB UShift
        | Some v => Done (v, ptr2, pos2)
        end
      end
    | Jmp c => Jmp c
    | UB r => UB r
    end
  end.

(** ia_core_coder_read_bits_buf, bitbuffer.c:147-190. *)
Definition read_bits (n : Z) (s : rbuf) : outcome (Z * rbuf) :=
  if n =? 0 then Done (0, s)
  else if (r_cnt s <? n) || (r_cnt s <? 0) then Jmp INSUFFICIENT_INPUT_BYTES
  else match rd_core (r_data s) (r_ptr s) (r_pos s) n with
       | Done (v, ptr, pos) => Done (v, mkR (r_data s) ptr pos (r_cnt s - n))
       | Jmp c => Jmp c
       | UB r => UB r
       end.

(** ia_core_coder_show_bits_buf, bitbuffer.c:93-131 (no state change). *)
Definition show_bits (n : Z) (s : rbuf) : outcome Z :=
  if n =? 0 then Done 0
  else if (r_cnt s <? n) || (r_cnt s <? 0) then Jmp INSUFFICIENT_INPUT_BYTES
  else match rd_core (r_data s) (r_ptr s) (r_pos s) n with
       | Done (v, _, _) => Done v
       | Jmp c => Jmp c
       | UB r => UB r
       end.

(** ia_core_coder_skip_bits_buf, bitbuffer.c:62-86.  C's [%] truncates towards
    zero ([Z.rem]); [>>] on a negative int is arithmetic ([Z.div]). *)
Definition skip_bits (n : Z) (s : rbuf) : outcome rbuf :=
  if (r_cnt s <? n) || (r_cnt s <? 0) then Jmp INSUFFICIENT_INPUT_BYTES
  else
    let pos := r_pos s - Z.rem n 8 in
    let ptr := r_ptr s + n / 8 in
    let '(ptr, pos) := if pos <? 0 then (ptr + 1, pos + 8) else (ptr, pos) in
    if 7 <? pos then Jmp INSUFFICIENT_INPUT_BYTES
    else Done (mkR (r_data s) ptr pos (r_cnt s - n)).

(** ia_core_coder_read_bits_buf_32, bitbuffer.c:201-239: as the reader with n = 32
    but without the final shifts. *)
Definition read_bits_32 (s : rbuf) : outcome (Z * rbuf) :=
  if (r_cnt s <? 32) || (r_cnt s <? 0) then Jmp INSUFFICIENT_INPUT_BYTES
  else match get_byte (r_data s) (r_ptr s) with
       | None => UB UOob
       | Some b0 =>
         match rd_loop 32 (r_data s) (r_ptr s) (r_pos s - 32) b0 with
         | Done (ptr1, pos1, v1) =>
           let '(ptr2, pos2) :=
             if pos1 =? -1 then (ptr1 + 1, pos1 + 8) else (ptr1, pos1) in
           Done (v1, mkR (r_data s) ptr2 pos2 (r_cnt s - 32))
         | Jmp c => Jmp c
         | UB r => UB r
         end
       end.

(** ia_core_coder_create_init_bit_buf (common_initfuncs.c:86-121): a fresh reader
    over a whole byte buffer. *)
Definition fresh (d : list Z) : rbuf := mkR d 0 7 (8 * Z.of_nat (length d)).

(** ** Specification side *)

(** Number of bits already passed. *)
Definition bitpos (s : rbuf) : Z := 8 * r_ptr s + 7 - r_pos s.

(** Well-formed reader state: bytes, position inside the buffer, counter not
    larger than what is left. *)
Definition wf (s : rbuf) : Prop :=
  are_bytes (r_data s) /\ 0 <= r_ptr s /\ 0 <= r_pos s <= 7 /\ 0 <= r_cnt s /\
  bitpos s + r_cnt s <= 8 * Z.of_nat (length (r_data s)).

(** The bits the reader still has to deliver. *)
Definition rest_bits (s : rbuf) : list bool :=
  firstn (Z.to_nat (r_cnt s)) (skipn (Z.to_nat (bitpos s)) (bytes_bits (r_data s))).

Lemma wf_fresh d : are_bytes d -> wf (fresh d).
Proof.
  intros H. unfold wf, fresh, bitpos. cbn [r_data r_ptr r_pos r_cnt].
  repeat split; auto; lia.
Qed.

Lemma rest_fresh d : rest_bits (fresh d) = bytes_bits d.
Proof.
  unfold rest_bits, fresh, bitpos. cbn [r_cnt r_data r_ptr r_pos].
  change (Z.to_nat (8 * 0 + 7 - 7)) with 0%nat. cbn [skipn].
  apply firstn_all2. rewrite bytes_bits_length. lia.
Qed.

Lemma rest_length s : wf s -> length (rest_bits s) = Z.to_nat (r_cnt s).
Proof.
  intros (B & Hp & Hb & Hc & Ht). unfold rest_bits.
  rewrite firstn_length, skipn_length, bytes_bits_length.
  unfold bitpos in *. lia.
Qed.

Lemma get_byte_in l i :
  0 <= i < Z.of_nat (length l) -> exists b, get_byte l i = Some b /\ In b l.
Proof.
  intros H. unfold get_byte.
  replace ((0 <=? i) && (i <? Z.of_nat (length l))) with true
    by (symmetry; apply andb_true_intro; split; [apply Z.leb_le|apply Z.ltb_lt]; lia).
  destruct (nth_error l (Z.to_nat i)) eqn:E.
  - eexists; split; eauto. eapply nth_error_In; eauto.
  - apply nth_error_None in E. lia.
Qed.

Lemma get_byte_split l i b :
  get_byte l i = Some b ->
  0 <= i < Z.of_nat (length l) /\
  skipn (Z.to_nat i) l = b :: skipn (Z.to_nat (i + 1)) l.
Proof.
  intros H. unfold get_byte in H.
  destruct ((0 <=? i) && (i <? Z.of_nat (length l))) eqn:E; [|discriminate].
  apply andb_true_iff in E as [E1 E2]. apply Z.leb_le in E1. apply Z.ltb_lt in E2.
  split; [lia|].
  replace (Z.to_nat (i + 1)) with (S (Z.to_nat i)) by lia.
  revert H. generalize (Z.to_nat i). clear. intros k; revert l.
  induction k; intros l H; destruct l as [|x r]; simpl in *; try discriminate.
  - congruence.
  - apply IHk, H.
Qed.

Lemma lor_disjoint a b : 0 <= a -> 0 <= b < 256 -> Z.lor (a * 2 ^ 8) b = a * 2 ^ 8 + b.
Proof.
  intros Ha Hb.
  assert (E : Z.land (a * 2 ^ 8) b = 0).
  { apply Z.bits_inj'. intros n Hn. rewrite Z.land_spec, Z.bits_0.
    destruct (Z.lt_ge_cases n 8).
    - rewrite Z.mul_pow2_bits_low by lia. reflexivity.
    - replace (Z.testbit b n) with false; [apply andb_false_r|].
      symmetry. rewrite Z.testbit_false by lia.
      rewrite Z.div_small; [reflexivity|].
      split; [lia|]. apply Z.lt_le_trans with (2 ^ 8); [change (2^8) with 256; lia|].
      apply Z.pow_le_mono_r; lia. }
  rewrite <- Z.lxor_lor by exact E. symmetry. apply Z.add_nocarry_lxor, E.
Qed.

(** The loop appends exactly the bytes that are needed. *)
Lemma rd_loop_ok d : are_bytes d -> forall j fuel ptr pos acc,
  0 <= ptr -> ptr + Z.of_nat j < Z.of_nat (length d) ->
  (length acc + 8 * j <= 32)%nat -> (j <= fuel)%nat ->
  -1 <= pos + 8 * Z.of_nat j -> ((0 < j)%nat -> pos + 8 * Z.of_nat j < 7) ->
  rd_loop fuel d ptr pos (val_of acc) =
  Done (ptr + Z.of_nat j, pos + 8 * Z.of_nat j,
        val_of (acc ++ firstn (8 * j) (bytes_bits (skipn (Z.to_nat (ptr + 1)) d)))).
Proof.
  intros Hd. induction j as [|j IH]; intros fuel ptr pos acc Hp Hl Hm Hf Hlo Hhi.
  - assert (E : pos <? -1 = false) by (apply Z.ltb_ge; lia).
    destruct fuel; cbn [rd_loop]; rewrite E; rewrite app_nil_r; do 2 f_equal; f_equal; lia.
  - destruct fuel as [|f]; [lia|]. cbn [rd_loop].
    assert (E : pos <? -1 = true) by (apply Z.ltb_lt; lia). rewrite E.
    destruct (get_byte_in d (ptr + 1) ltac:(lia)) as (b & Hb & Hin). rewrite Hb.
    assert (Bb : is_byte b) by (eapply Forall_forall in Hd; eauto).
    assert (R := val_of_range acc).
    assert (L24 : 2 ^ Z.of_nat (length acc) <= 2 ^ 24) by (apply Z.pow_le_mono_r; lia).
    assert (EV : Z.lor (u32 (val_of acc * 2 ^ 8)) b = val_of (acc ++ bits_of 8 b)).
    { unfold u32. rewrite to_u_id by (change (2^32) with (2^24 * 2^8); nia).
      rewrite lor_disjoint by (unfold is_byte in Bb; lia).
      rewrite val_of_app, bits_of_length, val_bits_of by (cbn; unfold is_byte in Bb; lia).
      reflexivity. }
    rewrite EV.
    rewrite IH; try (rewrite ?app_length, ?bits_of_length; lia).
    + apply get_byte_split in Hb as [_ Hs]. rewrite Hs.
      change (bytes_bits (b :: skipn (Z.to_nat (ptr + 1 + 1)) d))
        with (bits_of 8 b ++ bytes_bits (skipn (Z.to_nat (ptr + 1 + 1)) d)).
      replace (8 * S j)%nat with (8 + 8 * j)%nat by lia.
      rewrite firstn_app, bits_of_length.
      replace (8 + 8 * j - 8)%nat with (8 * j)%nat by lia.
      rewrite (firstn_all2 (n := (8 + 8 * j)%nat) (bits_of 8 b)) by (rewrite bits_of_length; lia).
      rewrite <- app_assoc.
      do 2 f_equal; f_equal; lia.
Qed.

Lemma shift_window w T n m o :
  0 <= o -> 0 <= n -> o + n <= m -> m <= 32 + o -> T = 32 - m + o -> 0 <= w < 2 ^ m ->
  ((w * 2 ^ T) mod 2 ^ 32) / 2 ^ (32 - n) = (w mod 2 ^ (m - o)) / 2 ^ (m - o - n).
Proof.
  intros Ho Hn Hm Hm2 -> Hw.
  set (T := 32 - m + o).
  assert (0 <= T) by (unfold T; lia).
  replace (2 ^ 32) with (2 ^ (m - o) * 2 ^ T)
    by (rewrite <- Z.pow_add_r by lia; f_equal; unfold T; lia).
  rewrite Z.mul_mod_distr_r by (apply Z.pow_nonzero; unfold T; lia).
  replace (32 - n) with ((m - o - n) + T) by (unfold T; lia).
  rewrite Z.pow_add_r by lia.
  rewrite Z.div_mul_cancel_r by (apply Z.pow_nonzero; lia).
  reflexivity.
Qed.

(** The core of a read delivers exactly the next [n] bits, for every position, as
    soon as offset-in-byte plus width does not exceed 31. *)
Lemma rd_core_ok d ptr pos n :
  are_bytes d -> 0 <= ptr -> 0 <= pos <= 7 -> 1 <= n -> 7 - pos + n <= 31 ->
  8 * ptr + 7 - pos + n <= 8 * Z.of_nat (length d) ->
  exists ptr' pos',
    rd_core d ptr pos n =
    Done (val_of (firstn (Z.to_nat n) (skipn (Z.to_nat (8 * ptr + 7 - pos)) (bytes_bits d))),
          ptr', pos') /\
    0 <= ptr' /\ 0 <= pos' <= 7 /\ 8 * ptr' + 7 - pos' = 8 * ptr + 7 - pos + n.
Proof.
  intros Hd Hp Hpos Hn H31 Hlen.
  set (o := 7 - pos) in *.
  unfold rd_core.
  destruct (get_byte_in d ptr ltac:(lia)) as (b0 & Hb0 & Hin0). rewrite Hb0.
  assert (Bb : is_byte b0) by (eapply Forall_forall in Hd; eauto).
  set (K := (o + n + 7) / 8).
  assert (HK : 8 * K - 7 <= o + n <= 8 * K).
  { unfold K. assert (D := Z.div_mod (o + n + 7) 8 ltac:(lia)).
    assert (M := Z.mod_pos_bound (o + n + 7) 8 ltac:(lia)). lia. }
  set (j := Z.to_nat (K - 1)).
  assert (Hj : Z.of_nat j = K - 1) by (unfold j; lia).
  assert (Ev : val_of (bits_of 8 b0) = b0) by (rewrite val_bits_of; [auto|cbn; exact Bb]).
  assert (LP : rd_loop (Z.to_nat n) d ptr (pos - n) (val_of (bits_of 8 b0)) =
    Done (ptr + Z.of_nat j, pos - n + 8 * Z.of_nat j,
          val_of (bits_of 8 b0 ++ firstn (8 * j) (bytes_bits (skipn (Z.to_nat (ptr + 1)) d)))))
    by (apply (rd_loop_ok d Hd j); rewrite ?bits_of_length; unfold o in *; lia).
  rewrite Ev in LP. rewrite LP. clear LP.
  set (W := bits_of 8 b0 ++ firstn (8 * j) (bytes_bits (skipn (Z.to_nat (ptr + 1)) d))).
  assert (HW : W = firstn (8 * S j) (skipn (Z.to_nat (8 * ptr)) (bytes_bits d))).
  { unfold W. replace (Z.to_nat (8 * ptr)) with (8 * Z.to_nat ptr)%nat by lia.
    rewrite bytes_bits_skipn.
    apply get_byte_split in Hb0 as [_ Hs]. rewrite Hs.
    change (bytes_bits (b0 :: skipn (Z.to_nat (ptr + 1)) d))
      with (bits_of 8 b0 ++ bytes_bits (skipn (Z.to_nat (ptr + 1)) d)).
    rewrite firstn_app, bits_of_length.
    rewrite (firstn_all2 (bits_of 8 b0)) by (rewrite bits_of_length; lia).
    f_equal. f_equal. lia. }
  assert (LW : Z.of_nat (length W) = 8 * K).
  { rewrite HW, firstn_length, skipn_length, bytes_bits_length. lia. }
  assert (RW := val_of_range W). rewrite LW in RW.
  assert (VAL : (val_of W mod 2 ^ (8 * K - o)) / 2 ^ (8 * K - o - n) =
    val_of (firstn (Z.to_nat n) (skipn (Z.to_nat (8 * ptr + 7 - pos)) (bytes_bits d)))).
  { replace (Z.to_nat (8 * ptr + 7 - pos)) with (Z.to_nat (8 * ptr) + Z.to_nat o)%nat
      by (unfold o; lia).
    rewrite <- skipn_skipn_add.
    set (B := skipn (Z.to_nat (8 * ptr)) (bytes_bits d)) in *.
    assert (EB : firstn (Z.to_nat n) (skipn (Z.to_nat o) B) =
                 firstn (Z.to_nat n) (skipn (Z.to_nat o) W)).
    { rewrite HW. rewrite skipn_firstn_comm, firstn_firstn. f_equal. lia. }
    rewrite EB. rewrite val_of_firstn by (rewrite skipn_length; lia).
    rewrite val_of_skipn by lia.
    rewrite skipn_length. f_equal; f_equal; f_equal; lia. }
  assert (Epos : pos - n + 8 * Z.of_nat j = 8 * K - 1 - (o + n)) by (unfold o; lia).
  rewrite Epos.
  destruct (Z.eqb_spec (8 * K - 1 - (o + n)) (-1)) as [E|E].
  - (* byte boundary reached *)
    assert (E8 : 8 * K = o + n) by lia.
    unfold shl32, shr32.
    replace (31 - n - (8 * K - 1 - (o + n) + 8)) with (24 - n) by lia.
    replace ((0 <=? 24 - n) && (24 - n <? 32)) with true
      by (symmetry; apply andb_true_intro; split; [apply Z.leb_le|apply Z.ltb_lt]; lia).
    replace ((0 <=? 32 - n) && (32 - n <? 32)) with true
      by (symmetry; apply andb_true_intro; split; [apply Z.leb_le|apply Z.ltb_lt]; lia).
    assert (P24 : 2 ^ (8 * K) <= 2 ^ 24) by (apply Z.pow_le_mono_r; lia).
    assert (Eu : u32 (val_of W * 2 ^ 8) = val_of W * 2 ^ 8).
    { unfold u32. apply to_u_id. change (2^32) with (2^24 * 2^8). nia. }
    rewrite Eu. unfold u32, to_u. rewrite <- Z.mul_assoc, <- Z.pow_add_r by lia.
    rewrite (shift_window (val_of W) _ n (8 * K) o) by lia.
    rewrite VAL.
    exists (ptr + Z.of_nat j + 1), (8 * K - 1 - (o + n) + 8).
    split; [reflexivity|]. unfold o in *. lia.
  - unfold shl32, shr32.
    replace (31 - n - (8 * K - 1 - (o + n))) with (32 - 8 * K + o) by lia.
    assert (HK4 : K <= 4) by lia.
    replace ((0 <=? 32 - 8 * K + o) && (32 - 8 * K + o <? 32)) with true
      by (symmetry; apply andb_true_intro; split; [apply Z.leb_le|apply Z.ltb_lt]; lia).
    replace ((0 <=? 32 - n) && (32 - n <? 32)) with true
      by (symmetry; apply andb_true_intro; split; [apply Z.leb_le|apply Z.ltb_lt]; lia).
    unfold u32, to_u.
    rewrite (shift_window (val_of W) _ n (8 * K) o) by lia.
    rewrite VAL.
    exists (ptr + Z.of_nat j), (8 * K - 1 - (o + n)).
    split; [reflexivity|]. unfold o in *. lia.
Qed.

(** ** Reads of up to 24 bits: exact at every position *)

Lemma rest_shift s ptr' pos' n :
  wf s -> 0 <= n <= r_cnt s -> 0 <= ptr' -> 0 <= pos' <= 7 ->
  8 * ptr' + 7 - pos' = bitpos s + n ->
  let s' := mkR (r_data s) ptr' pos' (r_cnt s - n) in
  wf s' /\ rest_bits s' = skipn (Z.to_nat n) (rest_bits s).
Proof.
  intros (B & Hp & Hb & Hc & Ht) Hn Hp' Hb' E. cbn zeta. split.
  - unfold wf, bitpos in *. cbn [r_data r_ptr r_pos r_cnt]. repeat split; auto; lia.
  - unfold rest_bits. cbn [r_data r_cnt].
    replace (bitpos (mkR (r_data s) ptr' pos' (r_cnt s - n))) with (bitpos s + n)
      by (unfold bitpos in *; cbn [r_ptr r_pos]; lia).
    rewrite skipn_firstn_comm, skipn_skipn_add. f_equal; [lia|]. f_equal.
    unfold bitpos in *. lia.
Qed.

Lemma firstn_rest n s :
  0 <= n <= r_cnt s ->
  firstn (Z.to_nat n) (rest_bits s) =
  firstn (Z.to_nat n) (skipn (Z.to_nat (bitpos s)) (bytes_bits (r_data s))).
Proof. intros H. unfold rest_bits. rewrite firstn_firstn. f_equal. lia. Qed.

Lemma read_bits_ok n s :
  wf s -> 0 <= n -> 7 - r_pos s + n <= 31 -> n <= r_cnt s ->
  exists s', read_bits n s = Done (val_of (firstn (Z.to_nat n) (rest_bits s)), s') /\
    wf s' /\ rest_bits s' = skipn (Z.to_nat n) (rest_bits s) /\
    r_data s' = r_data s /\ r_cnt s' = r_cnt s - n.
Proof.
  intros W Hn H31 Hc. unfold read_bits.
  destruct (Z.eqb_spec n 0) as [->|Hn0].
  - exists s. repeat split; auto; try apply W; cbn; lia.
  - assert (W' := W). destruct W' as (B & Hp & Hb & Hc0 & Ht).
    replace ((r_cnt s <? n) || (r_cnt s <? 0)) with false
      by (symmetry; apply orb_false_iff; split; apply Z.ltb_ge; lia).
    destruct (rd_core_ok (r_data s) (r_ptr s) (r_pos s) n) as (p' & b' & E & Q1 & Q2 & Q3);
      auto; try (unfold bitpos in *; lia).
    rewrite E. exists (mkR (r_data s) p' b' (r_cnt s - n)).
    destruct (rest_shift s p' b' n) as [W1 R1]; auto; try (unfold bitpos; lia).
    rewrite firstn_rest by lia. unfold bitpos.
    repeat split; try apply W1; auto.
Qed.

Lemma read_bits_short n s :
  n <> 0 -> r_cnt s < n -> read_bits n s = Jmp INSUFFICIENT_INPUT_BYTES.
Proof.
  intros H1 H2. unfold read_bits. destruct (Z.eqb_spec n 0); [lia|].
  replace (r_cnt s <? n) with true by (symmetry; apply Z.ltb_lt; lia). reflexivity.
Qed.

(** [show_bits] is [read_bits] without the new state. *)
Lemma show_read n s :
  show_bits n s = match read_bits n s with
                  | Done (v, _) => Done v | Jmp c => Jmp c | UB r => UB r end.
Proof.
  unfold show_bits, read_bits. destruct (n =? 0); [reflexivity|].
  destruct ((r_cnt s <? n) || (r_cnt s <? 0)); [reflexivity|].
  destruct (rd_core (r_data s) (r_ptr s) (r_pos s) n) as [[[v p] b]| |]; reflexivity.
Qed.

Lemma skip_bits_ok n s :
  wf s -> 0 <= n <= r_cnt s ->
  exists s', skip_bits n s = Done s' /\ wf s' /\
    rest_bits s' = skipn (Z.to_nat n) (rest_bits s) /\
    r_data s' = r_data s /\ r_cnt s' = r_cnt s - n.
Proof.
  intros W Hn. unfold skip_bits.
  replace ((r_cnt s <? n) || (r_cnt s <? 0)) with false
    by (symmetry; apply orb_false_iff; split; apply Z.ltb_ge; lia).
  assert (W' := W). destruct W' as (B & Hp & Hb & Hc0 & Ht).
  rewrite Z.rem_mod_nonneg by lia.
  assert (D := Z.div_mod n 8 ltac:(lia)). assert (M := Z.mod_pos_bound n 8 ltac:(lia)).
  destruct (Z.ltb_spec (r_pos s - n mod 8) 0).
  - replace (7 <? r_pos s - n mod 8 + 8) with false by (symmetry; apply Z.ltb_ge; lia).
    destruct (rest_shift s (r_ptr s + n / 8 + 1) (r_pos s - n mod 8 + 8) n) as [W1 R1];
      auto; try (unfold bitpos; lia).
    eexists; split; [reflexivity|]. repeat split; try apply W1; auto.
  - replace (7 <? r_pos s - n mod 8) with false by (symmetry; apply Z.ltb_ge; lia).
    destruct (rest_shift s (r_ptr s + n / 8) (r_pos s - n mod 8) n) as [W1 R1];
      auto; try (unfold bitpos; lia).
    eexists; split; [reflexivity|]. repeat split; try apply W1; auto.
Qed.

Lemma skip_bits_short n s :
  r_cnt s < n -> skip_bits n s = Jmp INSUFFICIENT_INPUT_BYTES.
Proof.
  intros H. unfold skip_bits.
  replace (r_cnt s <? n) with true by (symmetry; apply Z.ltb_lt; lia). reflexivity.
Qed.

(** ** Reads of 25 to 32 bits *)

Lemma lor_wrap a b :
  0 <= a -> 0 <= b < 256 ->
  Z.lor (u32 (u32 a * 2 ^ 8)) b = u32 (a * 2 ^ 8 + b).
Proof.
  intros Ha Hb. unfold u32, to_u.
  assert (E : (a mod 2 ^ 32 * 2 ^ 8) mod 2 ^ 32 = (a mod 2 ^ 24) * 2 ^ 8).
  { rewrite Zmult_mod_idemp_l. change (2 ^ 32) with (2 ^ 24 * 2 ^ 8).
    rewrite Z.mul_mod_distr_r by lia. reflexivity. }
  rewrite E. assert (R := Z.mod_pos_bound a (2 ^ 24) ltac:(lia)).
  rewrite lor_disjoint by lia.
  assert (D := Z.div_mod a (2 ^ 24) ltac:(lia)).
  replace (a * 2 ^ 8 + b) with ((a mod 2 ^ 24) * 2 ^ 8 + b + (a / 2 ^ 24) * 2 ^ 32).
  - rewrite Z.mod_add by lia.
    rewrite (Z.mod_small (a mod 2 ^ 24 * 2 ^ 8 + b)); [reflexivity|].
    change (2 ^ 32) with (2 ^ 24 * 2 ^ 8). change (2^8) with 256. lia.
  - change (2 ^ 32) with (2 ^ 24 * 2 ^ 8).
    transitivity ((2 ^ 24 * (a / 2 ^ 24) + a mod 2 ^ 24) * 2 ^ 8 + b); [ring|].
    rewrite <- D. reflexivity.
Qed.

(** The loop without a size restriction: the accumulated value modulo 2^32. *)
Lemma rd_loop_gen d : are_bytes d -> forall j fuel ptr pos acc,
  0 <= ptr -> ptr + Z.of_nat j < Z.of_nat (length d) -> (j <= fuel)%nat ->
  -1 <= pos + 8 * Z.of_nat j -> ((0 < j)%nat -> pos + 8 * Z.of_nat j < 7) ->
  rd_loop fuel d ptr pos (u32 (val_of acc)) =
  Done (ptr + Z.of_nat j, pos + 8 * Z.of_nat j,
        u32 (val_of (acc ++ firstn (8 * j) (bytes_bits (skipn (Z.to_nat (ptr + 1)) d))))).
Proof.
  intros Hd. induction j as [|j IH]; intros fuel ptr pos acc Hp Hl Hf Hlo Hhi.
  - assert (E : pos <? -1 = false) by (apply Z.ltb_ge; lia).
    destruct fuel; cbn [rd_loop]; rewrite E; rewrite app_nil_r; do 2 f_equal; f_equal; lia.
  - destruct fuel as [|f]; [lia|]. cbn [rd_loop].
    assert (E : pos <? -1 = true) by (apply Z.ltb_lt; lia). rewrite E.
    destruct (get_byte_in d (ptr + 1) ltac:(lia)) as (b & Hb & Hin). rewrite Hb.
    assert (Bb : is_byte b) by (eapply Forall_forall in Hd; eauto).
    assert (R := val_of_range acc).
    rewrite lor_wrap by (try exact Bb; lia).
    replace (val_of acc * 2 ^ 8 + b) with (val_of (acc ++ bits_of 8 b))
      by (rewrite val_of_app, bits_of_length, val_bits_of by exact Bb; reflexivity).
    rewrite IH; try lia.
    apply get_byte_split in Hb as [_ Hs]. rewrite Hs.
    change (bytes_bits (b :: skipn (Z.to_nat (ptr + 1 + 1)) d))
      with (bits_of 8 b ++ bytes_bits (skipn (Z.to_nat (ptr + 1 + 1)) d)).
    replace (8 * S j)%nat with (8 + 8 * j)%nat by lia.
    rewrite firstn_app, bits_of_length.
    replace (8 + 8 * j - 8)%nat with (8 * j)%nat by lia.
    rewrite (firstn_all2 (n := (8 + 8 * j)%nat) (bits_of 8 b)) by (rewrite bits_of_length; lia).
    rewrite <- app_assoc.
    do 2 f_equal; f_equal; lia.
Qed.

Lemma rd_loop_from d ptr pos n fuel b0 :
  are_bytes d -> 0 <= ptr -> 0 <= pos <= 7 -> 1 <= n ->
  8 * ptr + 7 - pos + n <= 8 * Z.of_nat (length d) ->
  get_byte d ptr = Some b0 -> (Z.to_nat n <= fuel)%nat ->
  let K := (7 - pos + n + 7) / 8 in
  rd_loop fuel d ptr (pos - n) b0 =
  Done (ptr + K - 1, 8 * K - 1 - (7 - pos + n),
        u32 (val_of (firstn (Z.to_nat (8 * K))
                       (skipn (Z.to_nat (8 * ptr)) (bytes_bits d))))).
Proof.
  intros Hd Hp Hpos Hn Hlen Hb0 Hf K.
  assert (Hin : In b0 d).
  { destruct (get_byte_in d ptr ltac:(lia)) as (b & Hb & Hi). congruence. }
  assert (Bb : is_byte b0) by (eapply Forall_forall in Hd; eauto).
  set (o := 7 - pos) in *.
  assert (HK : 8 * K - 7 <= o + n <= 8 * K).
  { unfold K. assert (D := Z.div_mod (o + n + 7) 8 ltac:(lia)).
    assert (M := Z.mod_pos_bound (o + n + 7) 8 ltac:(lia)). lia. }
  assert (Ev : u32 (val_of (bits_of 8 b0)) = b0).
  { rewrite val_bits_of by exact Bb. unfold u32. apply to_u_id. unfold is_byte in Bb. lia. }
  assert (LP := rd_loop_gen d Hd (Z.to_nat (K - 1)) fuel ptr (pos - n) (bits_of 8 b0)).
  rewrite Ev in LP. rewrite LP by (unfold o in *; lia). clear LP.
  f_equal. f_equal; [f_equal; unfold o in *; lia|].
  f_equal. f_equal.
  replace (Z.to_nat (8 * ptr)) with (8 * Z.to_nat ptr)%nat by lia.
  rewrite bytes_bits_skipn.
  apply get_byte_split in Hb0 as [_ Hs]. rewrite Hs.
  change (bytes_bits (b0 :: skipn (Z.to_nat (ptr + 1)) d))
    with (bits_of 8 b0 ++ bytes_bits (skipn (Z.to_nat (ptr + 1)) d)).
  rewrite firstn_app, bits_of_length.
  rewrite (firstn_all2 (bits_of 8 b0)) by (rewrite bits_of_length; lia).
  f_equal. f_equal. lia.
Qed.

(** Any read that needs 32 or more bits counted from the start of the current byte
    shifts by a negative amount. *)
Lemma read_bits_long_ub n s :
  wf s -> 25 <= n <= 32 -> 32 <= 7 - r_pos s + n -> n <= r_cnt s ->
  read_bits n s = UB UShift.
Proof.
  intros (B & Hp & Hb & Hc & Ht) Hn Ho Hcn. unfold read_bits.
  destruct (Z.eqb_spec n 0); [lia|].
  replace ((r_cnt s <? n) || (r_cnt s <? 0)) with false
    by (symmetry; apply orb_false_iff; split; apply Z.ltb_ge; lia).
  unfold rd_core. unfold bitpos in Ht.
  destruct (get_byte_in (r_data s) (r_ptr s) ltac:(lia)) as (b0 & Hb0 & _). rewrite Hb0.
  rewrite (rd_loop_from (r_data s) (r_ptr s) (r_pos s) n) by (auto; lia).
  set (o := 7 - r_pos s) in *.
  set (K := (o + n + 7) / 8).
  assert (HK : 8 * K - 7 <= o + n <= 8 * K).
  { unfold K. assert (D := Z.div_mod (o + n + 7) 8 ltac:(lia)).
    assert (M := Z.mod_pos_bound (o + n + 7) 8 ltac:(lia)). lia. }
  destruct (Z.eqb_spec (8 * K - 1 - (o + n)) (-1)).
  - unfold shl32.
    replace (0 <=? 31 - n - (8 * K - 1 - (o + n) + 8)) with false
      by (symmetry; apply Z.leb_gt; lia). reflexivity.
  - unfold shl32.
    replace (0 <=? 31 - n - (8 * K - 1 - (o + n))) with false
      by (symmetry; apply Z.leb_gt; unfold o in *; lia). reflexivity.
Qed.

Lemma read_32_exact s :
  wf s -> 32 <= r_cnt s ->
  exists s', read_bits_32 s =
    Done (val_of (firstn 32 (skipn (Z.to_nat (8 * (r_ptr s + (if r_pos s =? 7 then 0 else 1))))
                                  (bytes_bits (r_data s)))), s') /\
    wf s' /\ rest_bits s' = skipn 32 (rest_bits s).
Proof.
  intros W Hc32. assert (W0 := W). destruct W0 as (B & Hp & Hb & Hc & Ht).
  unfold read_bits_32.
  replace ((r_cnt s <? 32) || (r_cnt s <? 0)) with false
    by (symmetry; apply orb_false_iff; split; apply Z.ltb_ge; lia).
  assert (Ht' := Ht). unfold bitpos in Ht'.
  destruct (get_byte_in (r_data s) (r_ptr s) ltac:(lia)) as (b0 & Hb0 & _). rewrite Hb0.
  rewrite (rd_loop_from (r_data s) (r_ptr s) (r_pos s) 32) by (auto; lia).
  set (o := 7 - r_pos s) in *.
  set (K := (o + 32 + 7) / 8).
  assert (HK : 8 * K - 7 <= o + 32 <= 8 * K).
  { unfold K. assert (D := Z.div_mod (o + 32 + 7) 8 ltac:(lia)).
    assert (M := Z.mod_pos_bound (o + 32 + 7) 8 ltac:(lia)). lia. }
  destruct (Z.eqb_spec (r_pos s) 7) as [E7|E7].
  - assert (EK : K = 4) by (unfold o in *; lia). rewrite EK.
    replace (8 * 4 - 1 - (o + 32)) with (-1) by (unfold o; lia).
    cbn [Z.eqb Z.add].
    destruct (rest_shift s (r_ptr s + 4 - 1 + 1) 7 32) as [W1 R1]; auto;
      try (unfold bitpos; lia).
    eexists; split; [|split; [exact W1|exact R1]].
    do 2 f_equal. replace (r_ptr s + 0) with (r_ptr s) by lia.
    unfold u32. rewrite to_u_id; [reflexivity|].
    match goal with |- 0 <= val_of ?x < _ => assert (R := val_of_range x);
      rewrite firstn_length in R end.
    split; [lia|]. eapply Z.lt_le_trans; [apply R|]. apply Z.pow_le_mono_r; lia.
  - assert (EK : K = 5) by (unfold o in *; lia). rewrite EK.
    destruct (Z.eqb_spec (8 * 5 - 1 - (o + 32)) (-1)); [unfold o in *; lia|].
    destruct (rest_shift s (r_ptr s + 5 - 1) (8 * 5 - 1 - (o + 32)) 32) as [W1 R1]; auto;
      try (unfold bitpos, o in *; lia).
    eexists; split; [|split; [exact W1|exact R1]].
    do 2 f_equal. unfold u32, to_u.
    assert (L : length (firstn (Z.to_nat (8 * 5))
               (skipn (Z.to_nat (8 * r_ptr s)) (bytes_bits (r_data s)))) = 40%nat).
    { rewrite firstn_length, skipn_length, bytes_bits_length. unfold o in *. lia. }
    set (F := firstn (Z.to_nat (8 * 5)) _) in *.
    assert (VS := val_of_skipn 8 F ltac:(lia)). rewrite L in VS.
    change (2 ^ Z.of_nat (40 - 8)) with (2 ^ 32) in VS. rewrite <- VS.
    unfold F. f_equal. rewrite skipn_firstn_comm, skipn_skipn_add.
    f_equal. f_equal. lia.
Qed.
