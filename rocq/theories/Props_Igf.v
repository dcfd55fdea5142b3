(** * Properties of the gap filling *)
From Coq Require Import ZArith List Lia Bool.
From Verif Require Import Bits BitBuf BitWrite Prog Frame Spec_Asi Arith IgfRom Igf Spec_Arith Spec_Igf Lem_Igf Lem_IgfProps IgfData Spec_IgfData Lem_IgfData CoreIcs CoreBands Spec_CoreBands IgfInit Spec_IgfInit Lem_IgfInit.
Import ListNotations.
Open Scope Z_scope.

(** ** C116: gap filling levels are read as sent *)

(** Any kind of window, any bands, any number of windows, any state left by earlier frames and
    any levels that can be written: the levels are those sent (each band that of its group, in
    quarter octaves), they are remembered for the next frame, the return value says whether
    there is anything to fill (0) or the frame has to be refused (-1: all levels are 0, or the
    first band starts too low), and the bits after the levels are untouched.  Missing: frames
    that end within 15 bits of the last level, and earlier levels above 2^28. *)
Theorem C116_levels_partial : forall wt hires start len tiles min tbl off indep ws i b rest,
  0 <= wt <= 3 -> (1 <= start)%nat -> (1 <= len)%nat -> (start + len <= 53)%nat -> fit i ->
  nth_error tbl (start - 1) = Some off -> wf b -> (15 <= length rest)%nat -> (length ws <= 8)%nat ->
  let inc := group_size wt hires in
  let G := groups_in inc len in
  let reset := indep || negb (wt =? i_win i) in
  let v := base_env reset i in
  Forall (fun q => length q = G /\ Forall small q) ws ->
  windows_ok (v_t v) (gather start inc G (v_prev v)) (v_ctx v) ws ->
  rest_bits b = false :: encode (windows_syms (v_t v) (gather start inc G (v_prev v)) (v_ctx v) ws) ++ rest ->
  exists b', igf_levels wt hires (mkGrid (Z.of_nat start) (Z.of_nat (start + len)) tiles min) tbl indep (length ws) i b =
    Got (if existsb busy ws && (min <? (if 1 <? wt then off * 2 ^ wt else off)) then 0 else -1,
         mkIst (lev_env start inc len G v ws) wt (i_ptile i) (i_pwhite i) 0 (i_tile i)
           (levels_after start inc len (step_size wt hires) (base_of wt) ws (base_lev reset i)) (i_white i) (i_tnf i), b') /\
    wf b' /\ rest_bits b' = rest.
Proof. exact levels_run. Qed.
Print Assumptions C116_levels_partial.

(** A long window with five bands in three groups, then a second one after it. *)
Definition case_tbl : list Z := map Z.of_nat (seq 20 53).
Definition case_first : list Z := pack (false :: encode (windows_syms 0 [0; 0; 0] 0 [[100; 20; 33]]) ++ repeat true 15).
Definition case_second : list Z := pack (false :: encode (windows_syms 1 [100; 20; 33] 0 [[90; 25; 0]]) ++ repeat true 15).
Definition bands (i : ist) : list (option Z) := firstn 6 (skipn 11 (nth 0 (i_lev i) [])).
Example C116_case : exists i1 b1 i2 b2,
  windows_ok 0 [0; 0; 0] 0 [[100; 20; 33]] /\ windows_ok 1 [100; 20; 33] 0 [[90; 25; 0]] /\
  igf_levels 0 false (mkGrid 11 16 1 5) case_tbl true 1 quiet (fresh case_first) = Got (0, i1, b1) /\
  bands i1 = [Some 200; Some 200; Some 40; Some 40; Some 66; None] /\
  igf_levels 0 false (mkGrid 11 16 1 5) case_tbl false 1 i1 (fresh case_second) = Got (0, i2, b2) /\
  bands i2 = [Some 180; Some 180; Some 50; Some 50; Some 0; None] /\ v_t (i_env i2) = 2.
Proof.
  eexists. eexists. eexists. eexists. split; [split; [apply first_window_ok; repeat constructor; lia|exact I]|].
  split. { split; [|exact I]. intros [|[|[|n]]] H; cbn in H; try lia; (vm_compute; congruence). }
  split; [vm_compute; reflexivity|]. split; [vm_compute; reflexivity|]. split; [vm_compute; reflexivity|]. split; vm_compute; reflexivity.
Qed.

(** The flag that there is nothing to fill: everything is as after a reset. *)
Theorem C116_nothing : forall wt hires g tbl off indep n i b rest,
  nth_error tbl (Z.to_nat (g_start g - 1)) = Some off -> 1 <= g_start g -> wf b -> rest_bits b = true :: rest ->
  exists b', igf_levels wt hires g tbl indep n i b =
    Got (1, mkIst (mkEnv 0 0 (repeat 0 53)) wt (repeat 3 4) (repeat 0 4) 1 (repeat 3 4) (repeat (repeat None 53) 8) (repeat 0 4) 0, b') /\
    wf b' /\ rest_bits b' = rest.
Proof. exact zero_run. Qed.
Print Assumptions C116_nothing.

(** Which levels can be written: in the first window after a reset any from 0 to 127, later
    any from 0 to 75 whatever the ones before (as long as they were). *)
Theorem C116_first_sendable : forall p pd q, Forall (fun x => 0 <= x <= 127) q -> window_ok 0 p pd q.
Proof. exact first_window_ok. Qed.
Print Assumptions C116_first_sendable.
Theorem C116_sendable : forall ws t p pd, Forall (fun x => 0 <= x <= 75) p -> Forall (Forall (fun x => 0 <= x <= 75)) ws -> windows_ok t p pd ws.
Proof. exact windows_fine. Qed.
Print Assumptions C116_sendable.

(** Any bits at all, in a stream of at most 7920 frames (169 s at 48 kHz) without regard to
    what the frames say: no access outside a table or array, no overflow, no endless loop; a
    frame is read or refused, or the reader reports that the bits ran out.  Missing: longer
    streams, in which levels can grow beyond 32 bits (see below). *)
Theorem C116_safe_partial : forall n i wt hires g tbl indep groups b,
  heard n i -> Z.of_nat n <= 7920 -> in_range g tbl -> (groups <= 8)%nat -> wf b ->
  match igf_levels wt hires g tbl indep groups i b with
  | Got (rc, i', b') => (rc = -1 \/ rc = 0 \/ rc = 1) /\ i_win i' = wt /\ r_data b' = r_data b /\
      Forall (fun x => Z.abs x <= 67840 * Z.of_nat (S n)) (v_prev (i_env i'))
  | Jump => True
  | _ => False
  end.
Proof. exact heard_safe. Qed.
Print Assumptions C116_safe_partial.
Example C116_safe_case : heard 0 quiet /\ in_range (mkGrid 11 16 1 5) case_tbl.
Proof. split; [constructor|]. unfold in_range. cbn. lia. Qed.

(** Levels are meant to be 7-bit numbers; a stream can raise them step by step without being
    refused: after k frames a level of 100 * k, up to 2^28, for whatever bands. *)
Theorem C116_limit_refuted : forall start len tiles min tbl off,
  (1 <= start)%nat -> (1 <= len)%nat -> (start + len <= 53)%nat -> nth_error tbl (start - 1) = Some off -> min < off ->
  forall k, 100 * Z.of_nat k <= 2 ^ 28 -> exists i,
    after 0 true (mkGrid (Z.of_nat start) (Z.of_nat (start + len)) tiles min) tbl quiet k i /\
    fit i /\ i_win i = 0 /\ v_t (i_env i) = Z.of_nat k /\ gather start 1 len (v_prev (i_env i)) = repeat (100 * Z.of_nat k) len /\
    length (nth 0 (i_lev i) []) = 53%nat /\
    ((0 < k)%nat -> nth start (nth 0 (i_lev i) []) None = Some (100 * Z.of_nat k)).
Proof. exact climbs. Qed.
Print Assumptions C116_limit_refuted.

(** A frame that ends within its levels is accepted, and the reader moves backwards: from bit
    22 to bit 0, with 32 bits left where there were 18. *)
Theorem C116_forward_refuted : wf ends_early /\ exists i' b',
  igf_levels 0 true (mkGrid 11 13 1 0) (map Z.of_nat (seq 1 53)) true 1 quiet ends_early = Got (0, i', b') /\
  bitpos ends_early = 22 /\ bitpos b' = 0 /\ r_cnt b' = 32.
Proof. exact goes_back. Qed.
Print Assumptions C116_forward_refuted.

(** ** C117: tiles, whitening and flattening are read as sent *)

(** Up to four tiles, kept from the frame before or sent anew, whitenings kept, one for all or
    one for each, in frames that refer to others or not: the frame uses what was sent, the next
    frame can refer to it, unused cells are at their default, and decoding goes on behind.  The
    levels are untouched. *)
Theorem C117_data : forall wt nt uw ut indep i f s rest,
  (1 <= nt <= 4)%nat -> length (i_ptile i) = 4%nat -> length (i_pwhite i) = 4%nat ->
  valid_fill indep nt f -> wf s -> rest_bits s = enc_fill indep (uw && negb (wt =? 1)) (ut && negb (wt =? 1)) f ++ rest ->
  let white := uw && negb (wt =? 1) in
  let flat := ut && negb (wt =? 1) in
  let tile := four 3 (tiles_used f nt (i_ptile i)) in
  let wh := four 0 (whites_used white f nt (i_pwhite i)) in
  exists s', exec (igf_data wt nt uw ut indep i) s =
    Done (mkIst (i_env i) (i_win i) tile wh (i_zero i) tile (i_lev i) wh (if flat then b2z (f_flat f) else i_tnf i), s') /\
    wf s' /\ rest_bits s' = rest.
Proof. exact data_exec. Qed.
Print Assumptions C117_data.

(** Three tiles with whitenings of their own, then a frame that keeps the tiles. *)
Definition case_fill : fill := mkFill (NewTiles [2; 0; 1]) (EachWhite [2; 0; 1]) true.
Definition case_keep : fill := mkFill KeepTiles (OneWhite 1) false.
Example C117_case : valid_fill true 3 case_fill /\ valid_fill false 3 case_keep /\
  enc_fill true true true case_fill =
    [true; false; false; false; false; true; true; true; true; false; true; false; true] /\
  tiles_used case_keep 3 (four 3 (tiles_used case_fill 3 (i_ptile quiet))) = [2; 0; 1] /\
  enc_fill false true true case_keep = [true; false; true; false; false; false].
Proof.
  split; [|split; [|repeat split]].
  - split; cbn; (split; [reflexivity|]); repeat constructor; unfold is_white; lia.
  - split; cbn; [reflexivity|unfold is_white; lia].
Qed.

(** Any bits: no undefined behaviour, every tile names one of the four sources, every whitening
    is one of the three, nothing else changes. *)
Theorem C117_safe : forall wt nt uw ut indep i s, (nt <= 4)%nat -> orderly i -> wf s ->
  match exec (igf_data wt nt uw ut indep i) s with
  | Done (i', s') => (orderly i' /\ i_tile i' = i_ptile i' /\ i_white i' = i_pwhite i' /\
      i_env i' = i_env i /\ i_win i' = i_win i /\ i_lev i' = i_lev i /\ skipn nt (i_tile i') = repeat 3 (4 - nt)) /\
      wf s' /\ exists pre, rest_bits s = pre ++ rest_bits s'
  | Jmp _ => True
  | UB _ => False
  end.
Proof. exact data_safe. Qed.
Print Assumptions C117_safe.
Example C117_safe_case : orderly quiet.
Proof. repeat split; repeat constructor; unfold is_tile; lia. Qed.

(** ** C118: the bands and tiles of the gap filling *)

(** For every sampling rate from 2 Hz, every start and stop index, with or without high
    resolution: the range of a long window is the one the indices stand for and not empty; that
    of a short window goes from the first band reaching an eighth of the start to the first
    reaching an eighth of the end; where a range starts above the lowest line allowed, one to
    four tiles cover it without gaps and overlaps, each ending where a band ends. *)
Theorem C118_ranges : forall rate a b hires, 2 <= rate -> 0 <= a <= 15 -> 0 <= b <= 15 ->
  let L := ends_of (long_widths (nominal rate)) in let R := ends_of (short_widths (nominal rate)) in let n := Z.of_nat (length L) in
  let s := first_band n a in let e := end_band n s b in
  exists g0 g1 g2 g3 s1 e1, igf_init rate a b hires = Got (g0, g1, g2, g3) /\
    11 <= s < e /\ e <= n <= 53 /\ laid_out L hires s e (lowest 1024 rate mod 256) g0 /\
    least R (line L s / 8) s1 /\ least R (line L e / 8) e1 /\ s1 <= e1 /\ laid_out R hires s1 e1 (lowest 128 rate mod 256) g1 /\
    (g_start g2, g_stop g2, g_tiles g2, g_min g2) = (s1, e1, g_tiles g1, lowest 512 rate mod 256) /\
    (g_start g3, g_stop g3, g_tiles g3, g_min g3) = (s1, e1, g_tiles g1, lowest 1024 rate mod 256).
Proof. exact init_run. Qed.
Print Assumptions C118_ranges.
(** 48 kHz, indices 8 and 8: lines 120 (2812 Hz) to 576, in four tiles of two or more bands. *)
Example C118_case : exists g1 g2 g3, igf_init 48000 8 8 false = Got (mkGrid 19 37 4 48, g1, g2, g3) /\
  (line sfb_48_1024 19, line sfb_48_1024 37) = (120, 576) /\ tiles_of 19 37 48 false sfb_48_1024 = Got [96; 104; 128; 128].
Proof. eexists. eexists. eexists. split; [vm_compute; reflexivity|]. split; vm_compute; reflexivity. Qed.

(** From 9036 Hz on the lowest line is the first even one at or above 1125 Hz. *)
Theorem C118_lowest_partial : forall rate a b hires g0 g1 g2 g3,
  9036 <= rate -> 0 <= a <= 15 -> 0 <= b <= 15 -> igf_init rate a b hires = Got (g0, g1, g2, g3) ->
  g_min g0 = lowest 1024 rate /\ g_min g1 = lowest 128 rate /\ g_min g2 = lowest 512 rate /\ g_min g3 = lowest 1024 rate.
Proof. exact lowest_exact. Qed.
Print Assumptions C118_lowest_partial.
(** At 8 kHz it is line 288, but only 8 bits of it are kept: a range from line 132 is taken to
    be high enough. *)
Theorem C118_lowest_refuted : exists g0 g1 g2 g3, igf_init 8000 0 15 false = Got (g0, g1, g2, g3) /\
  lowest 1024 8000 = 288 /\ g_min g0 = 32 /\ line sfb_8_1024 (g_start g0) = 132 /\ g_tiles g0 = 4.
Proof. exact lowest_wraps. Qed.
Print Assumptions C118_lowest_refuted.

(** With these ranges the levels of C116 are read safely. *)
Theorem C118_in_range : forall rate a b hires g0 g1 g2 g3,
  2 <= rate -> 0 <= a <= 15 -> 0 <= b <= 15 -> igf_init rate a b hires = Got (g0, g1, g2, g3) ->
  forall tbl, (length (short_widths (nominal rate)) <= length tbl)%nat ->
  in_range g0 (ends_of (long_widths (nominal rate))) /\ in_range g1 tbl /\ in_range g2 tbl /\ in_range g3 tbl.
Proof. exact init_in_range. Qed.
Print Assumptions C118_in_range.

(** A sampling rate of 1 Hz, which a configuration may announce, is a division by zero. *)
Theorem C118_rate_refuted : forall a b hires, 0 <= a <= 15 -> 0 <= b <= 15 -> igf_init 1 a b hires = Bad.
Proof. exact rate_one. Qed.
Print Assumptions C118_rate_refuted.

(** With some indices the range of a short window is empty (at 48 kHz: start 15, stop 0), and
    then every frame of short windows with levels is refused. *)
Theorem C118_short_refuted : forall hires, exists g0 s t m g2 g3, igf_init 48000 15 0 hires = Got (g0, mkGrid s s t m, g2, g3) /\ g_start g0 < g_stop g0 /\
  forall tbl indep groups i b rest rc i' b', wf b -> rest_bits b = false :: rest ->
    igf_levels 1 hires (mkGrid s s t m) tbl indep groups i b = Got (rc, i', b') -> rc = -1.
Proof.
  intros hires. destruct (empty_short hires) as (g0 & s & t & m & g2 & g3 & E & L). exists g0, s, t, m, g2, g3. split; [exact E|]. split; [exact L|].
  intros tbl indep groups i b rest rc i' b'. apply empty_refused.
Qed.
Print Assumptions C118_short_refuted.
