(** * Lem_Bits: lemmas behind the theorems of Props_Bits.v *)

From Coq Require Import ZArith List Lia Bool.
From Verif Require Import Bits BitBuf BitWrite Prog Escape.
Import ListNotations.
Open Scope Z_scope.

Lemma read_spec s n :
  wf s -> 0 <= n <= 24 -> n <= r_cnt s ->
  exists v s', read_bits n s = Done (v, s') /\
    v = val_of (firstn (Z.to_nat n) (skipn (Z.to_nat (bitpos s)) (bytes_bits (r_data s)))) /\
    bitpos s' = bitpos s + n /\ r_data s' = r_data s /\ wf s'.
Proof.
  intros W Hn Hc.
  destruct (read_bits_ok n s W) as (s' & E & W' & R & D & C); try lia.
  { destruct W as (_ & _ & ? & _). lia. }
  exists (val_of (firstn (Z.to_nat n) (rest_bits s))), s'.
  split; [exact E|]. rewrite firstn_rest by lia. split; [reflexivity|].
  apply read_bits_const in E as (_ & _ & E). auto.
Qed.

Lemma exec_fresh_supported A (p : prog A) d r :
  are_bytes d -> supported p ->
  exec p (fresh d) = UB r -> runA p (bytes_bits d) = UB r.
Proof.
  intros B S E. rewrite <- rest_fresh. apply exec_supported; auto. apply wf_fresh, B.
Qed.

Lemma short_is_error s n :
  0 < n -> r_cnt s < n ->
  read_bits n s = Jmp INSUFFICIENT_INPUT_BYTES /\
  show_bits n s = Jmp INSUFFICIENT_INPUT_BYTES /\
  skip_bits n s = Jmp INSUFFICIENT_INPUT_BYTES.
Proof.
  intros H1 H2. assert (E : read_bits n s = Jmp INSUFFICIENT_INPUT_BYTES)
    by (apply read_bits_short; lia).
  split; [exact E|]. split; [|apply skip_bits_short; lia].
  rewrite show_read, E. reflexivity.
Qed.

(** Histories of reader operations. *)
Inductive op := ORead (n : Z) | OSkip (n : Z) | OPeek (n : Z).
Definition op_ok (o : op) : Prop :=
  match o with ORead n | OPeek n => 0 <= n <= 24 | OSkip n => 0 <= n end.
Definition op_width (o : op) : Z :=
  match o with ORead n | OSkip n => n | OPeek _ => 0 end.
Definition ops_width (l : list op) : Z := fold_right (fun o a => op_width o + a) 0 l.

Fixpoint run_ops (l : list op) (s : rbuf) : outcome rbuf :=
  match l with
  | [] => Done s
  | ORead n :: r => match read_bits n s with
                    | Done (_, s') => run_ops r s' | Jmp c => Jmp c | UB u => UB u end
  | OSkip n :: r => match skip_bits n s with
                    | Done s' => run_ops r s' | Jmp c => Jmp c | UB u => UB u end
  | OPeek n :: r => match show_bits n s with
                    | Done _ => run_ops r s | Jmp c => Jmp c | UB u => UB u end
  end.

Lemma run_ops_gen : forall ops s s', Forall op_ok ops -> run_ops ops s = Done s' ->
  bitpos s' = bitpos s + ops_width ops /\ r_cnt s' = r_cnt s - ops_width ops /\
  r_data s' = r_data s.
Proof.
  induction ops as [|o ops IH]; intros s s' HF H; cbn [run_ops ops_width fold_right] in *.
  - inversion H; subst. repeat split; lia.
  - inversion HF as [|? ? H1 H2]; subst. fold (ops_width ops).
    destruct o as [n|n|n]; cbn [op_ok op_width] in *.
    + destruct (read_bits n s) as [[v t]| |] eqn:E; try discriminate.
      apply read_bits_const in E as (E1 & E2 & E3).
      apply IH in H as (? & ? & ?); auto. repeat split; try congruence; lia.
    + destruct (skip_bits n s) as [t| |] eqn:E; try discriminate.
      apply skip_bits_const in E as (E1 & E2 & E3); [|lia].
      apply IH in H as (? & ? & ?); auto. repeat split; try congruence; lia.
    + destruct (show_bits n s) as [t| |] eqn:E; try discriminate.
      apply IH in H as (? & ? & ?); auto; repeat split; try congruence; lia.
Qed.

Lemma run_ops_exact d ops s :
  are_bytes d -> Forall op_ok ops -> run_ops ops (fresh d) = Done s ->
  bitpos s = ops_width ops /\
  r_cnt s = 8 * Z.of_nat (length d) - ops_width ops /\ r_data s = d.
Proof.
  intros _ HF H. apply run_ops_gen in H as (H1 & H2 & H3); auto.
Qed.

Lemma peek_is_read s n :
  show_bits n s = match read_bits n s with
                  | Done (v, _) => Done v | Jmp c => Jmp c | UB r => UB r end.
Proof. apply show_read. Qed.

Lemma peek_pure A (k : prog A) n s v :
  show_bits n s = Done v -> exec (Peek n (fun _ => k)) s = exec k s.
Proof. intros H. cbn [exec]. rewrite H. reflexivity. Qed.

Lemma long_read_witness : exists s n,
  wf s /\ 1 <= n <= 32 /\ n <= r_cnt s /\ read_bits n s = UB UShift.
Proof.
  exists (fresh [1; 2; 3; 4]), 32. split; [|split; [lia|split; [cbn; lia|vm_compute; reflexivity]]].
  apply wf_fresh. repeat constructor; unfold is_byte; lia.
Qed.

Lemma long_read_exact s n :
  wf s -> 1 <= n <= 32 -> n <= r_cnt s ->
  if 7 - r_pos s + n <=? 31
  then exists s', read_bits n s = Done (val_of (firstn (Z.to_nat n) (rest_bits s)), s') /\
                  rest_bits s' = skipn (Z.to_nat n) (rest_bits s) /\ wf s'
  else read_bits n s = UB UShift.
Proof.
  intros W Hn Hc. destruct (Z.leb_spec (7 - r_pos s + n) 31).
  - destruct (read_bits_ok n s W) as (s' & E & W' & R & _); try lia. eauto.
  - apply read_bits_long_ub; auto; try lia. destruct W as (_ & _ & ? & _). lia.
Qed.

Lemma read32_exact s :
  wf s -> 32 <= r_cnt s ->
  exists v s', read_bits_32 s = Done (v, s') /\ wf s' /\
    rest_bits s' = skipn 32 (rest_bits s) /\
    v = val_of (firstn 32 (skipn (8 * ((Z.to_nat (bitpos s) + 7) / 8)) (bytes_bits (r_data s)))).
Proof.
  intros W Hc. destruct (read_32_exact s W Hc) as (s' & E & W' & R).
  eexists _, s'. split; [exact E|]. split; [exact W'|]. split; [exact R|].
  do 3 f_equal. destruct W as (_ & Hp & Hb & _).
  assert (Ediv : ((Z.to_nat (bitpos s) + 7) / 8)%nat =
          Z.to_nat (r_ptr s + (if r_pos s =? 7 then 0 else 1))).
  { symmetry. apply (Nat.div_unique _ 8 _ (Z.to_nat ((bitpos s + 7) mod 8))).
    - assert (M := Z.mod_pos_bound (bitpos s + 7) 8 ltac:(lia)). lia.
    - assert (M := Z.mod_pos_bound (bitpos s + 7) 8 ltac:(lia)).
      assert (D := Z.div_mod (bitpos s + 7) 8 ltac:(lia)).
      assert (Q : (bitpos s + 7) / 8 = r_ptr s + (if r_pos s =? 7 then 0 else 1)).
      { symmetry. destruct (Z.eqb_spec (r_pos s) 7).
        - apply (Z.div_unique _ 8 _ (14 - r_pos s)); unfold bitpos; lia.
        - apply (Z.div_unique _ 8 _ (6 - r_pos s)); unfold bitpos; lia. }
      rewrite Q in D. unfold bitpos in *. destruct (r_pos s =? 7); lia. }
  rewrite Ediv. destruct (r_pos s =? 7); lia.
Qed.

Lemma read32_witness : exists s v s',
  wf s /\ 32 <= r_cnt s /\ read_bits_32 s = Done (v, s') /\
  v <> val_of (firstn 32 (rest_bits s)).
Proof.
  exists (mkR [0xF0; 0; 0; 0; 0x0F] 0 3 36). eexists _, _.
  split; [|split; [cbn; lia|split; [vm_compute; reflexivity|vm_compute; discriminate]]].
  unfold wf, bitpos, are_bytes, is_byte; cbn. repeat split; try lia.
  repeat constructor; lia.
Qed.

Lemma fields_bits_length fs : length (fields_bits fs) = list_sum (map fst fs).
Proof.
  induction fs as [|[n v] r IH]; [reflexivity|].
  change (fields_bits ((n, v) :: r)) with (bits_of n v ++ fields_bits r).
  rewrite app_length, bits_of_length, IH. reflexivity.
Qed.

Lemma writer_reader fs d :
  are_bytes d ->
  Forall (fun f => (fst f <= 24)%nat /\ 0 <= snd f < 2 ^ Z.of_nat (fst f)) fs ->
  (list_sum (map fst fs) <= 8 * length d)%nat ->
  exists s, write_all fs (wfresh d) = Done s /\
    w_cnt s = Z.of_nat (list_sum (map fst fs)) /\
    length (w_data s) = length d /\
    exists s', exec (read_fields (map fst fs)) (fresh (w_data s)) = Done (map snd fs, s') /\
               bitpos s' = w_cnt s.
Proof. rewrite <- fields_bits_length. apply write_read_roundtrip. Qed.

Lemma write_exact s pre v n :
  winv s pre -> 0 <= v -> 0 <= n <= 32 ->
  Z.of_nat (length pre) + n <= 8 * Z.of_nat (length (w_data s)) ->
  exists s', write_bits v n s = Done s' /\
    bytes_bits (w_data s') =
      pre ++ bits_of (Z.to_nat n) v ++ skipn (length pre + Z.to_nat n) (bytes_bits (w_data s)).
Proof.
  intros I Hv Hn HL.
  destruct (write_bits_ok v n s pre I Hv Hn HL) as (s' & E & (_ & _ & _ & F) & L & K).
  exists s'. split; [exact E|]. rewrite <- K, app_assoc.
  rewrite <- F at 1. rewrite app_length, bits_of_length. symmetry. apply firstn_skipn.
Qed.

Lemma esc_roundtrip (n1 n2 n3 : nat) v rest :
  (n1 <= 24)%nat -> (n2 <= 24)%nat -> (n3 <= 24)%nat ->
  0 <= v <= (2 ^ Z.of_nat n1 - 1) + (2 ^ Z.of_nat n2 - 1) + (2 ^ Z.of_nat n3 - 1) ->
  runA (read_escape (Z.of_nat n1) (Z.of_nat n2) (Z.of_nat n3)) (esc_enc n1 n2 n3 v ++ rest)
  = Done (v, rest).
Proof.
  intros H1 H2 H3 Hv.
  assert (E := read_escape_enc n1 n2 n3 v (fun x => Ret x) rest H1 H2 H3 Hv).
  rewrite runA_bind in E. cbn [runA] in E. rewrite <- E.
  destruct (runA (read_escape _ _ _) _) as [[? ?]| |]; reflexivity.
Qed.

(** Programs that do not [longjmp] with another code themselves. *)
Fixpoint nothrow {A} (p : prog A) : Prop :=
  match p with
  | Ret _ => True | Rd _ k => forall v, nothrow (k v) | Peek _ k => forall v, nothrow (k v)
  | Skip _ k => nothrow k | Avail k => forall c, nothrow (k c)
  | Throw c => c = INSUFFICIENT_INPUT_BYTES | Undef _ => True
  end.

Lemma runA_jmp_insufficient {A} (p : prog A) : forall l c,
  nothrow p -> runA p l = Jmp c -> c = INSUFFICIENT_INPUT_BYTES.
Proof.
  induction p as [a|n k IH|n k IH|n k IH|k IH|c0|r]; intros l c H E;
    cbn [runA nothrow] in *; try discriminate.
  - destruct ((n <? 0) || (24 <? n)); [discriminate|].
    destruct (Z.of_nat (length l) <? n); [congruence|]. eapply IH; eauto.
  - destruct ((n <? 0) || (24 <? n)); [discriminate|].
    destruct (Z.of_nat (length l) <? n); [congruence|]. eapply IH; eauto.
  - destruct (n <? 0); [discriminate|].
    destruct (Z.of_nat (length l) <? n); [congruence|]. eapply IH; eauto.
  - eapply IH; eauto.
  - congruence.
Qed.

Lemma esc_bounded (n1 n2 n3 : nat) s :
  (n1 <= 24)%nat -> (n2 <= 24)%nat -> (n3 <= 24)%nat -> wf s ->
  match exec (read_escape (Z.of_nat n1) (Z.of_nat n2) (Z.of_nat n3)) s with
  | Done (v, s') =>
      0 <= v <= (2 ^ Z.of_nat n1 - 1) + (2 ^ Z.of_nat n2 - 1) + (2 ^ Z.of_nat n3 - 1) /\ wf s'
  | Jmp c => c = INSUFFICIENT_INPUT_BYTES
  | UB _ => False
  end.
Proof.
  intros H1 H2 H3 W.
  set (p := read_escape (Z.of_nat n1) (Z.of_nat n2) (Z.of_nat n3)).
  assert (WP : wp p (fun v => 0 <= v <= esc_max n1 n2 n3)).
  { apply wp_read_escape; auto. }
  assert (X := wp_exec p _ s WP W).
  assert (Y := exec_refines p s W).
  destruct (exec p s) as [[v s']|c|r]; [| |exact X].
  - destruct X as (X1 & X2 & _). split; auto.
  - unfold agrees in Y. assert (Z0 := wp_runA p _ WP (rest_bits s)).
    destruct (runA p (rest_bits s)) as [[a l]|c'|r] eqn:E.
    + destruct Y as (? & ? & _). discriminate.
    + inversion Y; subst. eapply runA_jmp_insufficient; [|exact E].
      unfold p, read_escape, rd. cbn [bind nothrow]. intros v.
      destruct (v =? 2 ^ Z.of_nat n1 - 1); cbn [bind nothrow]; [|exact I]. intros v2.
      destruct (v2 =? 2 ^ Z.of_nat n2 - 1); cbn [bind nothrow]; [|exact I]. intros; exact I.
    + contradiction.
Qed.

Lemma esc_writer v (n1 n2 n3 : nat) s pre :
  winv s pre -> (n1 <= 30)%nat -> (n2 <= 30)%nat -> (n3 <= 30)%nat ->
  0 <= v <= (2 ^ Z.of_nat n1 - 1) + (2 ^ Z.of_nat n2 - 1) + (2 ^ Z.of_nat n3 - 1) ->
  (length pre + n1 + n2 + n3 <= 8 * length (w_data s))%nat ->
  exists s', write_escape v (Z.of_nat n1) (Z.of_nat n2) (Z.of_nat n3) s =
             Done (Z.of_nat (length (esc_enc n1 n2 n3 v)), s') /\
             winv s' (pre ++ esc_enc n1 n2 n3 v).
Proof.
  intros I H1 H2 H3 Hv HL.
  destruct (write_escape_ok v n1 n2 n3 s pre I H1 H2 H3) as (s' & E & I' & _); auto; [lia|].
  eauto.
Qed.
