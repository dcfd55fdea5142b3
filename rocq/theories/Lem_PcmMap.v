(** * Lem_PcmMap: the channel map made by the configuration, and witnesses *)

From Coq Require Import ZArith List Lia Bool SpecFloat.
From Verif Require Import Bits BitBuf Prog Frame F32 Config Api Pcm Spec_Pcm Lem_F32 Lem_PcmOut.
Import ListNotations.
Open Scope Z_scope.

(** The channel table after a sequence of channels with their shift flag and shift value;
    every channel element calls map_ele for each of its channels
    (ia_core_coder_decoder_config, init_config.c:557-677). *)
Fixpoint map_from (l : list Z) (shifts : list (Z * Z)) : prog (list Z) :=
  match shifts with
  | [] => Ret l
  | (si, sc) :: t => ' (l', _) <- map_ele l si sc ;; map_from l' t
  end.
Definition channel_map (shifts : list (Z * Z)) : prog (list Z) := map_from (repeat (-1) 50) shifts.

(** The table after k unshifted channels. *)
Definition map_of (k : nat) : list Z := List.map Z.of_nat (seq 0 k) ++ repeat (-1) (50 - k).

Lemma map_step k rest : (k < 24)%nat -> runA (map_ele (map_of k) 0 0) rest = Done ((map_of (S k), Z.of_nat k), rest).
Proof. intros H. do 24 (destruct k as [|k]; [reflexivity|]). lia. Qed.

Lemma map_run : forall m k rest, (k + m <= 24)%nat ->
  runA (map_from (map_of k) (repeat (0, 0) m)) rest = Done (map_of (k + m), rest).
Proof.
  induction m as [|m IH]; intros k rest H.
  - rewrite Nat.add_0_r. reflexivity.
  - cbn [repeat map_from]. rewrite runA_bind, map_step by lia. cbn [fst snd].
    rewrite IH by lia. do 3 f_equal. lia.
Qed.

Lemma map_of_dest k c : (k <= 50)%nat -> 0 <= c -> dest (map_of k) c = c.
Proof.
  intros K H. unfold dest, map_of.
  destruct (Nat.lt_ge_cases (Z.to_nat c) k) as [L|L].
  - rewrite app_nth1 by (rewrite map_length, seq_length; lia).
    rewrite (nth_indep _ (-1) (Z.of_nat 0)) by (rewrite map_length, seq_length; lia).
    rewrite map_nth, seq_nth by lia. destruct (Z.eqb_spec (Z.of_nat (0 + Z.to_nat c)) (-1)); lia.
  - rewrite app_nth2 by (rewrite map_length, seq_length; lia).
    rewrite nth_repeat. reflexivity.
Qed.

Lemma plain_map k nch rest : (k <= 24)%nat -> 0 <= nch <= 24 ->
  exists map, runA (channel_map (repeat (0, 0) k)) rest = Done (map, rest) /\
    length map = 50%nat /\ inverse_map map nch (fun c => c).
Proof.
  intros K N. exists (map_of k). split; [|split].
  - unfold channel_map. change (repeat (-1) 50) with (map_of 0). apply (map_run k 0). lia.
  - unfold map_of. rewrite app_length, map_length, seq_length, repeat_length. lia.
  - intros i H. rewrite map_of_dest by lia. repeat split; lia.
Qed.

Lemma room_ok us b nch map d bs c :
  sizes3 b -> 0 <= nch <= 24 -> 0 <= d -> (length us <= 2)%nat ->
  put_units us 1024 b map d nch = Some (bs, c) ->
  c = Z.of_nat (length bs) /\ c <= OUT_BUF_SIZE.
Proof.
  intros SB N D L E. destruct (units_len b 1024 nch SB ltac:(lia) ltac:(lia) us map d bs c D E) as [A B].
  split; [exact A|]. rewrite B. unfold OUT_BUF_SIZE.
  assert (Q : 0 <= Z.max 0 (Z.of_nat (length us) * 1024 - d) <= 2048) by lia.
  set (q := Z.max 0 (Z.of_nat (length us) * 1024 - d)) in *.
  assert (b / 8 <= 4 /\ 0 <= b / 8) by (destruct SB as [-> | [-> | ->]]; split; vm_compute; congruence).
  assert (0 <= q * nch <= 2048 * 24) by nia. nia.
Qed.

Definition word_fn (b : Z) (x : f32) : Z :=
  let lo := - 2 ^ (b - 1) in let hi := 2 ^ (b - 1) - 1 in
  match x with
  | S754_infinity s => if s then lo else hi
  | _ => match value149 x with
         | Some v => Z.max lo (Z.min hi (Z.quot (v * 2 ^ (b - 16)) (2 ^ 149)))
         | None => 0
         end
  end.
Lemma word_fn_ok b x : x <> S754_nan -> word_of b x (word_fn b x).
Proof. destruct x; intros N; try congruence; cbn [word_of word_fn]; try reflexivity; eexists; split; reflexivity. Qed.

Lemma room_over : forall c, exists c',
  get_sampling_ratio (s_c_rates c 48000 16000) = Some (0, c') /\
  forall x, (forall k s, float32 (x k s) /\ below_full_scale (x k s)) ->
    exists o, samples_sat (c_flen c') 32 x (repeat (-1) 50) 0 17 = Some o /\
      OUT_BUF_SIZE < Z.of_nat (length (po_bytes o)) /\ po_count o = Z.of_nat (length (po_bytes o)).
Proof.
  intros c. eexists. split; [reflexivity|]. intros x H.
  cbn [c_flen s_c_ratio s_c_rates]. change (Z.quot (1024 * 3) 1) with 3072.
  destruct (sat_ok 32 3072 0 17 (repeat (-1) 50) x (fun j => j) (fun j s => word_fn 32 (x j s)))
    as (o & E & B & C & _).
  - right; right; reflexivity.
  - lia.
  - lia.
  - rewrite repeat_length. lia.
  - change (repeat (-1) 50) with (map_of 0). intros i Hi. rewrite map_of_dest by lia. repeat split; lia.
  - intros k s _ _. destruct (H k s). split; [assumption|intros _; assumption].
  - intros j s _ _. apply word_fn_ok. intros N. destruct (H j s) as [_ Q]. rewrite N in Q. exact Q.
  - exists o. split; [exact E|]. split; [|exact C].
    rewrite B, interleaved_len; [reflexivity|right; right; reflexivity|lia].
Qed.

Lemma full_scale x v : float32 x -> value149 x = Some v -> 2 ^ 15 * 2 ^ 149 <= v ->
  samples_sat 1 32 (fun _ _ => x) [-1] 0 1 = None.
Proof.
  intros F V G. unfold samples_sat. change (0 <=? 1) with true. cbv iota.
  change (Z.to_nat 1) with 1%nat. change (place 1 0 [-1] (repeat 0 24)) with (Some ([0], repeat 0 24)).
  cbv iota. change (Z.to_nat (1 - 0)) with 1%nat. cbn [put_samples put_channels].
  change (get (repeat 0 24) 0) with (Some 0). cbv iota.
  change (put 32 x) with (put32 x). rewrite (put32_full x v F V G). reflexivity.
Qed.

Lemma sat_nan b : samples_sat 1 b (fun _ _ => S754_nan) [-1] 0 1 = None.
Proof.
  unfold samples_sat. change (0 <=? 1) with true. cbv iota.
  change (Z.to_nat 1) with 1%nat. change (place 1 0 [-1] (repeat 0 24)) with (Some ([0], repeat 0 24)).
  cbv iota. change (Z.to_nat (1 - 0)) with 1%nat. cbn [put_samples put_channels].
  change (get (repeat 0 24) 0) with (Some 0). cbv iota. rewrite put_nan. reflexivity.
Qed.

Lemma word_nan b n : ~ word_of b S754_nan n. Proof. exact (fun H => H). Qed.

Lemma shift_duplicates : forall el, exists map el',
  runA (cpe_config el (repeat (-1) 50) 2) [false;false;false;false;false;false;true;false;false]
    = Done ((0, (el', map)), []) /\
  forall x w, (forall c, 0 <= c < 2 -> float32 (x c 0) /\ word_of 16 (x c 0) (w c)) ->
    exists o, samples_sat 1 16 x map 0 2 = Some o /\ po_bytes o = le_bytes 2 (w 0) ++ le_bytes 2 (w 0).
Proof.
  intros []. eexists. eexists. split; [vm_compute; reflexivity|].
  intros x w H. destruct (H 0 ltac:(lia)) as [F W].
  unfold samples_sat. change (0 <=? 1) with true. cbv iota.
  match goal with |- context [place ?k 0 ?m ?p] =>
    let v := eval vm_compute in (place k 0 m p) in change (place k 0 m p) with v end.
  cbv iota. change (Z.to_nat (1 - 0)) with 1%nat. change (Z.to_nat 2) with 2%nat. cbn [put_samples put_channels].
  match goal with |- context [get ?l 0] => change (get l 0) with (Some 0) end.
  match goal with |- context [get ?l (0 + 1)] => change (get l (0 + 1)) with (Some 0) end. cbv iota.
  rewrite (put_word 16 _ _ (or_introl eq_refl) F ltac:(lia) W).
  eexists. split; [reflexivity|]. cbn [po_bytes]. rewrite !app_nil_r. reflexivity.
Qed.

Lemma shift_overflows : forall el, exists map el',
  runA (cpe_config el (map_of 14) 16) [false;false;false;false;false;false;true;true;true;true;true;false]
    = Done ((0, (el', map)), []) /\
  forall n b x d, samples_sat n b x map d 16 = None.
Proof.
  intros []. eexists. eexists. split; [vm_compute; reflexivity|].
  intros n b x d. apply (sat_oob b n d 16 _ x 15); [lia|vm_compute; congruence|].
  match goal with |- context [dest ?m 15] => change (dest m 15) with 31 end. lia.
Qed.

Lemma pcm_case :
  samples_sat 2 16 (fun c s => of_int (256 * c - s)) [1; 0] 1 2 =
    Some (mkPO [255; 0; 255; 255] [1; 0] 0 4) /\
  inverse_map [1; 0] 2 (fun j => 1 - j) /\
  float32 (of_int (-1)) /\ below_full_scale (of_int (-1)) /\ word_of 24 (of_int (-1)) (-256).
Proof.
  split; [vm_compute; reflexivity|]. split; [|split; [reflexivity|split]].
  - intros i H. assert (i = 0 \/ i = 1) as [-> | ->] by lia; vm_compute; repeat split; congruence.
  - eexists. split; [reflexivity|]. vm_compute. reflexivity.
  - eexists. split; [reflexivity|]. vm_compute. reflexivity.
Qed.
