(** * Props_Arith: C33 - C35, C78 *)

From Coq Require Import ZArith List Bool Lia.
From Verif Require Import Bits ArithRom Arith Spec_Arith Spec_Lines Lem_Arith Lem_Level2 Lem_Lines.
Import ListNotations.
Open Scope Z_scope.

(** C33.  Whatever the bits are, decoding any sequence of symbols keeps the interval well
    formed and yields symbols of the alphabets.  Undefined behaviour (Bad: overflow of a
    WORD32 or an index outside a table), an endless loop (Stuck) and the other outcomes are
    excluded; Invalid is the error return when the bits have run out. *)
Theorem C33_symbols : forall (cfs : list (list Z)) (bs : list bool), Forall freq_table cfs ->
  match decode_all (fst (first_symbol bs)) (snd (first_symbol bs)) 16 cfs with
  | Got (ys, s, bs', n) => Forall2 is_symbol cfs ys /\
      (0 <= a_low s /\ a_low s <= a_val s /\ a_val s <= a_high s /\ a_high s <= 65535 /\ 16384 < a_high s - a_low s + 1) /\
      exists k : nat, bs' = skipn (16 + k) bs /\ n = 16 + Z.of_nat k
  | Invalid => True
  | _ => False
  end.
Proof. exact symbols_ok. Qed.
Print Assumptions C33_symbols.

(** The tables of the decoder are frequency tables. *)
Theorem C33_tables : Forall freq_table ari_cf_m /\ Forall freq_table ari_cf_r.
Proof. exact tables_ok. Qed.
Print Assumptions C33_tables.

Example C33_case : exists ys s bs', decode_all (fst (first_symbol (bits_of 40 500000000000))) (snd (first_symbol (bits_of 40 500000000000))) 16
  (firstn 3 ari_cf_m) = Got (ys, s, bs', 22) /\ ys = [0; 1; 4].
Proof. eexists _, _, _. split; vm_compute; reflexivity. Qed.

(** A whole spectral line set: no access outside the context arrays, the tables or the array
    of lines, and no overflow except Over (the sum of two magnitudes, next theorem). *)
Theorem C33_spectrum_partial : forall bs prev pres n pres_n, ctx prev -> ctx pres -> (n <= pres_n <= 512)%nat ->
  Z.of_nat (length bs) < 2 ^ 24 ->
  match level2 bs prev pres n pres_n with
  | Got (q, prev', pres', bs') => length q = (2 * pres_n)%nat /\ ctx prev' /\ ctx pres' /\ exists k, bs' = skipn k bs
  | Bad | Stuck => False
  | _ => True
  end.
Proof. exact level2_fine. Qed.
Print Assumptions C33_spectrum_partial.

(** The missing part: the sum of two decoded magnitudes can overflow (183 bits suffice). *)
Theorem C33_sum_overflow_refuted : exists bs prev pres, ctx prev /\ ctx pres /\ length bs = 183%nat /\
  level2 bs prev pres 1 1 = Over.
Proof.
  exact (ex_intro _ over_bits (ex_intro _ ones516 (ex_intro _ ones516
    (conj ones_ctx (conj ones_ctx (conj over_length over_reached)))))).
Qed.
Print Assumptions C33_sum_overflow_refuted.

(** C34.  The escape loop of every pair ends within enough bs = 64 (length bs + 19) rounds,
    for every bit sequence, also after the bits have run out. *)
Theorem C34_terminates : forall bs prev pres n pres_n, ctx prev -> ctx pres -> (n <= pres_n <= 512)%nat ->
  Z.of_nat (length bs) < 2 ^ 24 -> level2 bs prev pres n pres_n <> Stuck.
Proof. exact level2_ends. Qed.
Print Assumptions C34_terminates.

Theorem C34_escapes : forall c s bs n fuel, good s -> Z.of_nat (length bs) < 2 ^ 24 ->
  64 * (Z.of_nat (length bs) + 18) < Z.of_nat fuel -> escapes fuel c 0 s bs n <> Stuck /\ escapes fuel c 0 s bs n <> Bad.
Proof. exact escapes_end. Qed.
Print Assumptions C34_escapes.

Example C34_case : level2 (repeat false 20) ones516 ones516 1 1 = Invalid.
Proof. vm_compute. reflexivity. Qed.

(** C35.  Symbols written with the encoder of Spec_Arith come back, and the number of bits the
    decoder accounts for (n - 14) is the length of the code, if at least 15 bits follow it. *)
Theorem C35_symbols_partial : forall l rest,
  Forall (fun x => freq_table (fst x) /\ is_symbol (fst x) (snd x)) l -> (15 <= length rest)%nat ->
  exists s' n, decode_all (fst (first_symbol (encode l ++ rest))) (snd (first_symbol (encode l ++ rest))) 16 (map fst l) =
      Got (map snd l, s', skipn (Z.to_nat n) (encode l ++ rest), n) /\
    n - 14 = Z.of_nat (length (encode l)).
Proof. exact roundtrip_plain. Qed.
Print Assumptions C35_symbols_partial.

(** The missing part is false: two silent pairs followed by the end mark, sent with nothing
    behind, are rejected. *)
Theorem C35_last_bits_refuted : exists prev pres, ctx prev /\ ctx pres /\
  level2 (line_bits prev pres [(0, 0); (0, 0)] 3 3) prev pres 3 3 = Invalid.
Proof. exact (ex_intro _ ones516 (ex_intro _ pres121 (conj ones_ctx (conj pres_ctx short_rejected)))). Qed.
Print Assumptions C35_last_bits_refuted.

Example C35_case : Forall (fun x => freq_table (fst x) /\ is_symbol (fst x) (snd x))
  [(nth 0 ari_cf_r [], 2); (nth 1 ari_cf_r [], 0)].
Proof.
  destruct C33_tables as [_ T].
  constructor; [|constructor; [|constructor]]; (split; [|unfold is_symbol; cbn; lia]); cbn [fst].
  - exact (Forall_inv T).
  - exact (Forall_inv (Forall_inv_tail T)).
Qed.

(** C78.  A quantised spectrum (at most n pairs of signed lines, magnitudes below 2^30) written
    as in Spec_Lines is decoded exactly; the lines after it are 0, the contexts for the next
    window are the sizes of the pairs, and decoding ends behind the last sign bit. *)
Theorem C78_spectrum : forall prev pres l n m rest, ctx prev -> ctx pres -> (length l <= n <= m)%nat -> (m <= 512)%nat ->
  Forall small l -> (15 <= length (sign_bits (flat l) ++ rest))%nat ->
  level2 (line_bits prev pres l n m ++ rest) prev pres n m =
    Got (flat l ++ repeat 0 (2 * (m - length l)), aged m prev pres, line_ctx (blank m pres) 0 (mags l), rest).
Proof. exact lines_roundtrip. Qed.
Print Assumptions C78_spectrum.

Example C78_case : Forall small [(3, -17); (0, 0); (-1, 300)] /\ sign_bits (flat [(3, -17); (0, 0); (-1, 300)]) = [true; false; false; true].
Proof. split; [|reflexivity]. repeat constructor. Qed.
