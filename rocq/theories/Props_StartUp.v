(** * Props_StartUp: C120, the first sample that is given out *)
From Coq Require Import ZArith List Lia Bool SpecFloat.
From Verif Require Import F32 Limiter Pcm Api Spec_Lim Spec_Pcm Spec_Api Lem_PcmOut Lem_PcmMap Lem_Lim Lem_Api StartUp Lem_StartUp Spec_StartUp.
Import ListNotations.
Open Scope Z_scope.

(** What is common to the statements below: word size, channels, map and signal. *)
Definition playable (b nch : Z) (map : list Z) (p : Z -> Z) (word : f32 -> Z) (ac rc : f32) (frames : list (list (list f32))) : Prop :=
  (b = 16 \/ b = 24 \/ b = 32) /\ 0 <= nch <= 24 /\ nch <= Z.of_nat (length map) /\ inverse_map map nch p /\ words b word /\
  coefficient ac /\ coefficient rc /\ quiet (Z.to_nat nch) (concat frames).

(** C120: what is given out begins with the first decoded sample, at every rate; at 48 kHz the
    last 240 samples of the stream never come out.  Partial: without resampling, binaural
    rendering, format converter and domain switcher, and for a signal the limiter need not
    limit (so that samples in and out can be compared). *)
Theorem C120_start_partial : forall i fs x b nch map p word ac rc frames,
  valid i -> (i_resamp i = 0 \/ fs = i_fs i) -> e_bin x = false -> e_fc x = false -> e_ds x = false ->
  playable b nch map p word ac rc frames ->
  exists c i' att d, first_init fs x (stored i) (after i) = Some (c, i', att, d) /\
    play (limits c) (lim_init (Z.to_nat att) (Z.to_nat nch) ac rc) b nch map d frames =
    Some (signal_bytes b nch p word (firstn (length (concat frames) - (if Z.eqb fs 48000 then 240 else 0)) (concat frames))).
Proof.
  intros i fs x b nch map p word ac rc frames V NR B FC DS (SB & N & LM & INV & WD & A & R & Q).
  destruct (settled fs x i V NR B FC DS) as (c & i' & d & E & D & L & _). do 4 eexists. split; [exact E|]. rewrite L, D.
  destruct (Z.eqb_spec fs 48000) as [->|NE].
  - rewrite (heard_limited b nch p word); auto; [|vm_compute; lia|vm_compute; discriminate]. rewrite undelayed. reflexivity.
  - rewrite (heard_plain b nch p word); auto; [|lia]. rewrite Nat.sub_0_r, firstn_all. reflexivity.
Qed.
Print Assumptions C120_start_partial.

(** As many samples are dropped as the limiter adds, whatever rate is asked for, unless a stream
    of 48 kHz is to come out at another rate. *)
Theorem C120_dropped_partial : forall i fs x, valid i -> 0 <= i_fs i -> e_bin x = false -> e_fc x = false -> e_ds x = false ->
  exists c i' att d, first_init fs x (stored i) (after i) = Some (c, i', att, d) /\
  (d = (if limits c then att else 0) <-> ~ (i_resamp i <> 0 /\ fs = 48000 /\ i_fs i <> 48000 /\ 200 <= i_fs i)).
Proof.
  intros i fs x V F B FC DS. destruct (delay_match fs x i V F B FC DS) as (c & i' & att & d & E & M & _). exists c, i', att, d. auto.
Qed.
Print Assumptions C120_dropped_partial.

(** A rate that a stream of 48 kHz cannot be converted to: the limiter is off and the samples of
    five milliseconds of that rate are dropped. *)
Theorem C120_rejected_rate_refuted : forall i x, valid i -> i_resamp i = 1 -> 200 <= i_fs i -> i_fs i <> 48000 ->
  e_bin x = false -> e_fc x = false -> e_ds x = false ->
  exists c i' att, first_init 48000 x (stored i) (after i) = Some (c, i', att, i_fs i / 200) /\ limits c = false /\ 0 < i_fs i / 200.
Proof.
  intros i x V R F N B FC DS. destruct (delay_match 48000 x i V ltac:(lia) B FC DS) as (c & i' & att & d & E & M & M2).
  destruct M2 as (M2 & M3); [intros H; apply M in H; lia|]. subst d. exists c, i', att. split; [exact E|]. split; [exact M3|].
  pose proof (Z.div_le_lower_bound (i_fs i) 200 1 ltac:(lia)). lia.
Qed.
Print Assumptions C120_rejected_rate_refuted.

(** When a new configuration changes the rate, the limiter is still switched by the old rate.
    To 48 kHz: the first 240 samples are lost.  From 48 kHz: the output is late. *)
Theorem C120_restart_refuted : forall i fs1 fs2 x b nch map p word ac rc frames,
  valid i -> i_resamp i = 0 -> e_bin x = false -> e_fc x = false -> e_ds x = false -> 200 <= fs2 ->
  playable b nch map p word ac rc frames ->
  exists c i' a d c2 att2 d2, first_init fs1 x (stored i) (after i) = Some (c, i', a, d) /\ restart fs2 x c = (c2, att2, d2) /\
  let out := play (limits c2) (lim_init (Z.to_nat att2) (Z.to_nat nch) ac rc) b nch map d2 frames in
  (fs1 <> 48000 -> fs2 = 48000 -> out = Some (signal_bytes b nch p word (skipn 240 (concat frames)))) /\
  (fs1 = 48000 -> fs2 <> 48000 -> out = Some (signal_bytes b nch p word (delayed (Z.to_nat (fs2 / 200)) (Z.to_nat nch) (concat frames)))).
Proof.
  intros i fs1 fs2 x b nch map p word ac rc frames V R B FC DS F (SB & N & LM & INV & WD & A & RC & Q).
  destruct (settled fs1 x i V (or_introl R) B FC DS) as (c & i' & d & E & _ & _ & CR & CO).
  exists c, i', (attack_of fs1), d. unfold restart, first_frame. rewrite B, FC, DS, CR. cbn [Z.eqb negb]. rewrite andb_false_r.
  do 3 eexists. split; [exact E|]. split; [reflexivity|]. cbv zeta. unfold limits. cbn [s_c_noresamp c_ofs c_resamp Z.eqb]. rewrite CO, andb_true_r.
  split.
  - intros N1 ->. replace (fs1 =? 48000) with false by lia. rewrite (heard_plain b nch p word); auto; vm_compute; discriminate.
  - intros -> N2. cbn [Z.eqb Pos.eqb]. replace (fs2 =? 48000) with false by lia. rewrite attack_200.
    pose proof (Z.div_le_lower_bound fs2 200 1 ltac:(lia)). rewrite (heard_limited b nch p word); auto; lia.
Qed.
Print Assumptions C120_restart_refuted.

(** Two channels that change places, two frames of one sample, at 44100 Hz. *)
Example C120_case :
  let i := mkIn 16 0 0 0 0 0 (-1) 0 0 in let x := mkEx false false false false in
  let frames := [[[of_int 3; of_int (-1)]]; [[of_int 5; of_int 7]]] in
  valid i /\ i_resamp i = 0 /\
  playable 16 2 [1; 0] (fun j => 1 - j) (word_fn 16) (of_int 0) (of_int 0) frames /\
  signal_bytes 16 2 (fun j => 1 - j) (word_fn 16) (concat frames) = [255; 255; 3; 0; 7; 0; 5; 0].
Proof.
  cbv zeta. split; [unfold valid, pcm_ok, effect_ok, loud_ok, layout_ok, preset_ok; cbn; lia|]. split; [reflexivity|]. split; [|vm_compute; reflexivity].
  unfold playable. split; [auto|]. split; [lia|]. split; [cbn; lia|]. split.
  { intros j H. assert (j = 0 \/ j = 1) as [-> | ->] by lia; vm_compute; repeat split; congruence. }
  split. { intros y F. apply word_fn_ok. destruct y; discriminate. }
  split. { repeat split; vm_compute; reflexivity. }
  split. { repeat split; vm_compute; reflexivity. }
  split; repeat constructor.
Qed.
