(** * Escape: escaped integers (decoder/ia_core_coder_init_config.c:149-173) *)

From Coq Require Import ZArith List Lia Bool.
From Verif Require Import Bits BitBuf BitWrite Prog.
Import ListNotations.
Open Scope Z_scope.

(** ia_core_coder_read_escape_value, init_config.c:149-173.  UWORD32 additions wrap. *)
Definition read_escape (n1 n2 n3 : Z) : prog Z :=
  let e1 := 2 ^ n1 - 1 in
  let e2 := 2 ^ n2 - 1 in
  v <- rd n1 ;;
  if v =? e1 then
    v2 <- rd n2 ;;
    if v2 =? e2 then
      v3 <- rd n3 ;;
      Ret (u32 (u32 (v3 + e2) + e1))
    else Ret (u32 (v2 + e1))
  else Ret v.

Definition esc_max (n1 n2 n3 : nat) : Z :=
  (2 ^ Z.of_nat n1 - 1) + (2 ^ Z.of_nat n2 - 1) + (2 ^ Z.of_nat n3 - 1).

Lemma pow2_le24 n : (n <= 24)%nat -> 1 <= 2 ^ Z.of_nat n <= 2 ^ 24.
Proof.
  intros. split.
  - assert (P := pow2_pos (Z.of_nat n) ltac:(lia)). lia.
  - apply Z.pow_le_mono_r; lia.
Qed.

(** Reading back the standard encoding. *)
Lemma read_escape_enc {A} (n1 n2 n3 : nat) v (k : Z -> prog A) rest :
  (n1 <= 24)%nat -> (n2 <= 24)%nat -> (n3 <= 24)%nat ->
  0 <= v <= esc_max n1 n2 n3 ->
  runA (bind (read_escape (Z.of_nat n1) (Z.of_nat n2) (Z.of_nat n3)) k)
       (esc_enc n1 n2 n3 v ++ rest) = runA (k v) rest.
Proof.
  intros H1 H2 H3 Hv. unfold esc_max in Hv.
  assert (P1 := pow2_le24 n1 H1). assert (P2 := pow2_le24 n2 H2). assert (P3 := pow2_le24 n3 H3).
  unfold read_escape, esc_enc, rd. cbn [bind].
  set (m1 := 2 ^ Z.of_nat n1 - 1) in *. set (m2 := 2 ^ Z.of_nat n2 - 1) in *.
  destruct (Z.ltb_spec v m1) as [C1|C1].
  - rewrite runA_rd by (auto; lia).
    destruct (Z.eqb_spec v m1); [lia|]. reflexivity.
  - destruct (Z.ltb_spec v (m1 + m2)) as [C2|C2].
    + rewrite <- app_assoc. rewrite runA_rd by (auto; lia). rewrite Z.eqb_refl. cbn [bind].
      rewrite runA_rd by (auto; lia). destruct (Z.eqb_spec (v - m1) m2); [lia|]. cbn [bind].
      replace (u32 (v - m1 + m1)) with v; [reflexivity|].
      replace (v - m1 + m1) with v by lia. unfold u32. symmetry; apply to_u_id. lia.
    + rewrite <- !app_assoc. rewrite runA_rd by (auto; lia). rewrite Z.eqb_refl. cbn [bind].
      rewrite runA_rd by (auto; lia). rewrite Z.eqb_refl. cbn [bind].
      rewrite runA_rd by (auto; lia). cbn [bind].
      replace (u32 (u32 (v - m1 - m2 + m2) + m1)) with v; [reflexivity|].
      unfold u32. rewrite (to_u_id 32 (v - m1 - m2 + m2)) by lia.
      rewrite to_u_id by lia. lia.
Qed.

(** Every decoded value is bounded. *)
Lemma wp_read_escape (n1 n2 n3 : nat) (Q : Z -> Prop) :
  (n1 <= 24)%nat -> (n2 <= 24)%nat -> (n3 <= 24)%nat ->
  (forall v, 0 <= v <= esc_max n1 n2 n3 -> Q v) ->
  wp (read_escape (Z.of_nat n1) (Z.of_nat n2) (Z.of_nat n3)) Q.
Proof.
  intros H1 H2 H3 HQ. unfold esc_max in HQ.
  assert (P1 := pow2_le24 n1 H1). assert (P2 := pow2_le24 n2 H2). assert (P3 := pow2_le24 n3 H3).
  unfold read_escape, rd. cbn [bind wp].
  split; [lia|]. intros v Hv.
  destruct (Z.eqb_spec v (2 ^ Z.of_nat n1 - 1)).
  - cbn [bind wp]. split; [lia|]. intros v2 Hv2.
    destruct (Z.eqb_spec v2 (2 ^ Z.of_nat n2 - 1)).
    + cbn [bind wp]. split; [lia|]. intros v3 Hv3. apply HQ.
      unfold u32. rewrite (to_u_id 32 (v3 + _)) by lia. rewrite to_u_id by lia. lia.
    + cbn [bind wp]. apply HQ. unfold u32. rewrite to_u_id by lia. lia.
  - cbn [wp]. apply HQ. lia.
Qed.

(** A sequence of fixed-width fields read one after the other. *)
Fixpoint read_fields (ws : list nat) : prog (list Z) :=
  match ws with
  | [] => Ret []
  | w :: r => v <- rd (Z.of_nat w) ;; vs <- read_fields r ;; Ret (v :: vs)
  end.

Lemma read_fields_enc : forall fs rest,
  Forall (fun f => (fst f <= 24)%nat /\ 0 <= snd f < 2 ^ Z.of_nat (fst f)) fs ->
  runA (read_fields (map fst fs)) (fields_bits fs ++ rest) = Done (map snd fs, rest).
Proof.
  induction fs as [|[n v] fs IH]; intros rest H; [reflexivity|].
  inversion H as [|? ? [Ha Hb] Hc]; subst. cbn [fst snd] in *.
  cbn [map read_fields fst].
  change (fields_bits ((n, v) :: fs)) with (bits_of n v ++ fields_bits fs).
  rewrite <- app_assoc. unfold rd. cbn [bind]. rewrite runA_rd by auto.
  rewrite runA_bind, IH by auto. reflexivity.
Qed.

(** Write with the writer, read back with the concrete reader. *)
Lemma write_read_roundtrip fs d :
  are_bytes d ->
  Forall (fun f => (fst f <= 24)%nat /\ 0 <= snd f < 2 ^ Z.of_nat (fst f)) fs ->
  (length (fields_bits fs) <= 8 * length d)%nat ->
  exists s, write_all fs (wfresh d) = Done s /\
    w_cnt s = Z.of_nat (length (fields_bits fs)) /\
    length (w_data s) = length d /\
    exists s', exec (read_fields (map fst fs)) (fresh (w_data s)) = Done (map snd fs, s') /\
               bitpos s' = w_cnt s.
Proof.
  intros Hd HF HL.
  destruct (write_all_ok fs (wfresh d) [] (winv_fresh d Hd)) as (s & E & I & L).
  { eapply Forall_impl; [|exact HF]. cbn. intros f [? ?]. lia. }
  { cbn [length wfresh w_data]. lia. }
  cbn [app] in I. cbn [wfresh w_data] in L. destruct I as (B & _ & C & F).
  exists s. split; [exact E|]. split; [exact C|]. split; [exact L|].
  assert (R := exec_refines (read_fields (map fst fs)) (fresh (w_data s)) (wf_fresh _ B)).
  rewrite rest_fresh in R.
  assert (EB : bytes_bits (w_data s) = fields_bits fs ++ skipn (length (fields_bits fs)) (bytes_bits (w_data s))).
  { rewrite <- F at 1. symmetry. apply firstn_skipn. }
  rewrite EB in R. rewrite read_fields_enc in R by exact HF.
  destruct R as (s' & E' & W' & R'). exists s'. split; [exact E'|].
  assert (SUP : supported (read_fields (map fst fs))).
  { clear - HF. induction HF as [|[n v] l [Hx Hy] HF IH]; [exact I|].
    cbn [map fst read_fields] in *. unfold rd. cbn [bind supported]. split; [lia|]. intros w _.
    clear - IH. induction (read_fields (map fst l)) as [|? ? IHp|? ? IHp|? ? IHp|? IHp| |];
      cbn [bind supported] in *; auto; try (destruct IH; split; auto). }
  destruct (exec_const _ _ _ _ SUP (wf_fresh _ B) E') as [D1 D2].
  assert (L' := f_equal (@length bool) R').
  rewrite rest_length in L' by exact W'. rewrite skipn_length, bytes_bits_length in L'.
  destruct W' as (_ & _ & _ & ? & _).
  assert (B0 : bitpos (fresh (w_data s)) = 0) by reflexivity.
  assert (C0 : r_cnt (fresh (w_data s)) = 8 * Z.of_nat (length (w_data s))) by reflexivity.
  lia.
Qed.
