(** * Properties C01-C07: the bitstream reader and writer

    Vocabulary (Bits.v, BitBuf.v): [bytes_bits d] is the bit string of the bytes [d],
    [val_of] the big-endian value of a bit string, [bitpos s] the number of bits
    already passed, [rest_bits s] the bits still to be delivered, [wf s] a reader whose
    position is inside its buffer and whose counter does not exceed what is left;
    [fresh d] is the reader created over a caller's buffer. *)

From Coq Require Import ZArith List Lia Bool.
From Verif Require Import Bits BitBuf BitWrite Prog Escape Lem_Bits.
Import ListNotations.
Open Scope Z_scope.

(** C01: a read of [n] bits returns the next [n] bits as a big-endian number, advances by
    exactly [n] bits and leaves the input bytes alone. *)
Theorem C01_read_returns_next_bits : forall s n,
  wf s -> 0 <= n <= 24 -> n <= r_cnt s ->
  exists v s', read_bits n s = Done (v, s') /\
    v = val_of (firstn (Z.to_nat n) (skipn (Z.to_nat (bitpos s)) (bytes_bits (r_data s)))) /\
    bitpos s' = bitpos s + n /\ r_data s' = r_data s /\ wf s'.
Proof. exact read_spec. Qed.
Print Assumptions C01_read_returns_next_bits.

(** Hypotheses are met, e.g., in the middle of a byte. *)
Example C01_case : let s := mkR [0xA5; 0x3C; 0xFF] 0 4 21 in
  wf s /\ read_bits 9 s = Done (val_of [false;false;true;false;true;false;false;true;true],
                                mkR [0xA5; 0x3C; 0xFF] 1 3 12).
Proof. split; [|vm_compute; reflexivity]. unfold wf, bitpos, are_bytes, is_byte; cbn.
  repeat split; try lia. repeat constructor; lia. Qed.

(** C02: for every parser whose reads ask for at most 24 bits and whose skips are not
    negative, on every buffer: no access outside the buffer and no other undefined
    behaviour of the reader (the only undefined behaviour possible is one the parser
    itself contains, on the very same bits). *)
Theorem C02_no_read_outside_input : forall A (p : prog A) d r,
  are_bytes d -> supported p ->
  exec p (fresh d) = UB r -> runA p (bytes_bits d) = UB r.
Proof. exact exec_fresh_supported. Qed.
Print Assumptions C02_no_read_outside_input.

(** C02: asking for more than what remains stops with the insufficient-input error. *)
Theorem C02_insufficient_input_is_an_error : forall s n,
  0 < n -> r_cnt s < n ->
  read_bits n s = Jmp INSUFFICIENT_INPUT_BYTES /\
  show_bits n s = Jmp INSUFFICIENT_INPUT_BYTES /\
  skip_bits n s = Jmp INSUFFICIENT_INPUT_BYTES.
Proof. exact short_is_error. Qed.
Print Assumptions C02_insufficient_input_is_an_error.

(** C02, the parser result itself: what a supported parser computes on the concrete
    buffer is what it computes on the plain list of bits. *)
Theorem C02_reader_refines_bit_list : forall A (p : prog A) s,
  wf s -> agrees (exec p s) (runA p (rest_bits s)).
Proof. exact @exec_refines. Qed.
Print Assumptions C02_reader_refines_bit_list.

Example C02_case : supported (read_escape 4 8 16) /\
  exec (read_escape 4 8 16) (fresh [0xF0; 0x10]) = Done (16, mkR [0xF0; 0x10] 1 3 4) /\
  exec (read_escape 4 8 16) (fresh [0xFF]) = Jmp INSUFFICIENT_INPUT_BYTES.
Proof.
  split; [|split; vm_compute; reflexivity].
  apply wp_supported with (Q := fun _ => True).
  apply (wp_read_escape 4 8 16); auto; lia.
Qed.

(** C03: after any history of successful operations on a caller's buffer the counter
    is the number of bits not yet consumed, and the number consumed is the sum of the
    widths asked for. *)
Theorem C03_remaining_bits_exact : forall d ops s,
  are_bytes d -> Forall op_ok ops -> run_ops ops (fresh d) = Done s ->
  bitpos s = ops_width ops /\
  r_cnt s = 8 * Z.of_nat (length d) - ops_width ops /\ r_data s = d.
Proof. exact run_ops_exact. Qed.
Print Assumptions C03_remaining_bits_exact.

Example C03_case : run_ops [ORead 3; OPeek 7; OSkip 10; ORead 4] (fresh [1;2;3]) =
  Done (mkR [1;2;3] 2 6 7).
Proof. reflexivity. Qed.

(** C04: peeking returns what reading would return (including the error) ... *)
Theorem C04_peek_value_is_read_value : forall s n,
  show_bits n s = match read_bits n s with
                  | Done (v, _) => Done v | Jmp c => Jmp c | UB r => UB r end.
Proof. exact peek_is_read. Qed.
Print Assumptions C04_peek_value_is_read_value.

(** ... and every computation after a successful peek is unchanged by it. *)
Theorem C04_peek_is_pure : forall A (k : prog A) n s v,
  show_bits n s = Done v -> exec (Peek n (fun _ => k)) s = exec k s.
Proof. exact peek_pure. Qed.
Print Assumptions C04_peek_is_pure.

(** C05: the full claim, "any n up to 32 at any alignment", is false: a read that needs 32
    or more bits counted from the start of the current byte is undefined behaviour. *)
Theorem C05_long_reads_refuted : exists s n,
  wf s /\ 1 <= n <= 32 /\ n <= r_cnt s /\ read_bits n s = UB UShift.
Proof. exact long_read_witness. Qed.
Print Assumptions C05_long_reads_refuted.

(** C05, what does hold, exactly: for 1 <= n <= 32 the read is right if the bits end
    before the 32nd bit from the start of the current byte, and undefined otherwise; so
    every read up to 24 bits is right, 32 never is. *)
Theorem C05_long_reads_partial : forall s n,
  wf s -> 1 <= n <= 32 -> n <= r_cnt s ->
  if 7 - r_pos s + n <=? 31
  then exists s', read_bits n s = Done (val_of (firstn (Z.to_nat n) (rest_bits s)), s') /\
                  rest_bits s' = skipn (Z.to_nat n) (rest_bits s) /\ wf s'
  else read_bits n s = UB UShift.
Proof. exact long_read_exact. Qed.
Print Assumptions C05_long_reads_partial.

(** C05, the dedicated 32-bit reader: it always returns the 32 bits starting at the next
    byte boundary while advancing 32 bits from the current position; hence it is right
    when byte aligned. *)
Theorem C05_read32_exact_partial : forall s,
  wf s -> 32 <= r_cnt s ->
  exists v s', read_bits_32 s = Done (v, s') /\ wf s' /\
    rest_bits s' = skipn 32 (rest_bits s) /\
    v = val_of (firstn 32 (skipn (8 * ((Z.to_nat (bitpos s) + 7) / 8)) (bytes_bits (r_data s)))).
Proof. exact read32_exact. Qed.
Print Assumptions C05_read32_exact_partial.

Theorem C05_read32_misaligned_refuted : exists s v s',
  wf s /\ 32 <= r_cnt s /\ read_bits_32 s = Done (v, s') /\
  v <> val_of (firstn 32 (rest_bits s)).
Proof. exact read32_witness. Qed.
Print Assumptions C05_read32_misaligned_refuted.

(** C06: fields written with the writer are read back unchanged; the bit count is the sum
    of the widths. *)
Theorem C06_writer_reader_inverse : forall fs d,
  are_bytes d ->
  Forall (fun f => (fst f <= 24)%nat /\ 0 <= snd f < 2 ^ Z.of_nat (fst f)) fs ->
  (list_sum (map fst fs) <= 8 * length d)%nat ->
  exists s, write_all fs (wfresh d) = Done s /\
    w_cnt s = Z.of_nat (list_sum (map fst fs)) /\
    length (w_data s) = length d /\
    exists s', exec (read_fields (map fst fs)) (fresh (w_data s)) = Done (map snd fs, s') /\
               bitpos s' = w_cnt s.
Proof. exact writer_reader. Qed.
Print Assumptions C06_writer_reader_inverse.

(** C06: a single write of up to 32 bits puts exactly these bits at the write position,
    and changes no other bit of the buffer. *)
Theorem C06_write_exact : forall s pre v n,
  winv s pre -> 0 <= v -> 0 <= n <= 32 ->
  Z.of_nat (length pre) + n <= 8 * Z.of_nat (length (w_data s)) ->
  exists s', write_bits v n s = Done s' /\
    bytes_bits (w_data s') =
      pre ++ bits_of (Z.to_nat n) v ++ skipn (length pre + Z.to_nat n) (bytes_bits (w_data s)).
Proof. exact write_exact. Qed.
Print Assumptions C06_write_exact.

Example C06_case : exists s,
  write_all [(3%nat, 5); (11%nat, 1026); (24%nat, 0xABCDEF)] (wfresh (repeat 0xFF 5)) = Done s /\
  w_cnt s = 38.
Proof. eexists; split; vm_compute; reflexivity. Qed.

(** C07: the standard encoding of an escaped value is decoded to the value and consumed
    exactly, whatever follows. *)
Theorem C07_escaped_value_roundtrip : forall (n1 n2 n3 : nat) v rest,
  (n1 <= 24)%nat -> (n2 <= 24)%nat -> (n3 <= 24)%nat ->
  0 <= v <= (2 ^ Z.of_nat n1 - 1) + (2 ^ Z.of_nat n2 - 1) + (2 ^ Z.of_nat n3 - 1) ->
  runA (read_escape (Z.of_nat n1) (Z.of_nat n2) (Z.of_nat n3)) (esc_enc n1 n2 n3 v ++ rest)
  = Done (v, rest).
Proof. exact esc_roundtrip. Qed.
Print Assumptions C07_escaped_value_roundtrip.

(** C07: every value decoded from any buffer is within the representable range. *)
Theorem C07_escaped_value_bounded : forall (n1 n2 n3 : nat) s,
  (n1 <= 24)%nat -> (n2 <= 24)%nat -> (n3 <= 24)%nat -> wf s ->
  match exec (read_escape (Z.of_nat n1) (Z.of_nat n2) (Z.of_nat n3)) s with
  | Done (v, s') =>
      0 <= v <= (2 ^ Z.of_nat n1 - 1) + (2 ^ Z.of_nat n2 - 1) + (2 ^ Z.of_nat n3 - 1) /\ wf s'
  | Jmp c => c = INSUFFICIENT_INPUT_BYTES
  | UB _ => False
  end.
Proof. exact esc_bounded. Qed.
Print Assumptions C07_escaped_value_bounded.

(** C07: the library's escaped-value writer produces that encoding, and reports its
    length. *)
Theorem C07_escaped_writer_is_standard : forall v (n1 n2 n3 : nat) s pre,
  winv s pre -> (n1 <= 30)%nat -> (n2 <= 30)%nat -> (n3 <= 30)%nat ->
  0 <= v <= (2 ^ Z.of_nat n1 - 1) + (2 ^ Z.of_nat n2 - 1) + (2 ^ Z.of_nat n3 - 1) ->
  (length pre + n1 + n2 + n3 <= 8 * length (w_data s))%nat ->
  exists s', write_escape v (Z.of_nat n1) (Z.of_nat n2) (Z.of_nat n3) s =
             Done (Z.of_nat (length (esc_enc n1 n2 n3 v)), s') /\
             winv s' (pre ++ esc_enc n1 n2 n3 v).
Proof. exact esc_writer. Qed.
Print Assumptions C07_escaped_writer_is_standard.

(** The code itself, for one value in each of the three ranges. *)
Example C07_case : esc_enc 2 4 8 1 = [false; true] /\
  esc_enc 2 4 8 5 = [true; true; false; false; true; false] /\
  length (esc_enc 2 4 8 100) = 14%nat.
Proof. repeat split. Qed.
