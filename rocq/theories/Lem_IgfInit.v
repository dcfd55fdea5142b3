(** * Lem_IgfInit: bands and tiles of the gap filling *)

From Coq Require Import ZArith List Lia Bool.
From Verif Require Import Bits BitBuf Arith Spec_Arith Lem_Arith CoreIcs CoreBands Igf IgfInit Spec_IgfInit Spec_CoreBands Lem_CoreBands Lem_IgfProps.
Import ListNotations.
Open Scope Z_scope.

(** The twelve sets of bands. *)
Definition inb (x : Z) (l : list Z) : bool := existsb (Z.eqb x) l.
Fixpoint piecesb (from : Z) (sizes ends : list Z) : bool :=
  match sizes with [] => true | t :: r => (0 <? t) && inb (from + t) ends && piecesb (from + t) r ends end.
Definition divb (b e : Z) (ends sizes : list Z) : bool := (fold_right Z.add 0 sizes =? e - b) && piecesb b sizes ends.

Definition entry' (l : list Z) (i : Z) : Z := nth (Z.to_nat i) l 0.
(** The tiles between two bands, whatever the lowest line. *)
Definition tilesb (s e : Z) (hires : bool) (tbl : list Z) : bool :=
  let b := entry' tbl (s - 1) in let f := entry' tbl (e - 1) in
  match tile_loop 4 0 b s s e f (Z.max 8 (f - b) / 4) hires tbl [] with
  | Got t => divb b f tbl t && Nat.leb 1 (length t) && Nat.leb (length t) 4
  | _ => false
  end.
Definition idxs : list Z := [0; 1; 2; 3; 4; 5; 6; 7; 8; 9; 10; 11; 12; 13; 14; 15].
Definition pairb (n : Z) (long short : list Z) (a b : Z) : bool :=
  let sl := start_long n a in let el := stop_long n sl b in
  let ss := short_band (entry' long (sl - 1) / 8) short 0 in let es := short_band (entry' long (el - 1) / 8) short 0 in
  (11 <=? sl) && (sl <? el) && (el <=? n) && (n <=? 53) && (1 <=? ss) && (ss <=? es) && (es <=? Z.of_nat (length short)) && (es <=? 53) &&
  (entry' long (sl - 1) <? entry' long (el - 1)) && ((ss =? es) || (entry' short (ss - 1) <? entry' short (es - 1))) &&
  tilesb sl el true long && tilesb sl el false long &&
  ((ss =? es) || tilesb ss es true short && tilesb ss es false short).
Definition setb (x : Z * list Z * list Z) : bool :=
  let '(n, long, short) := x in
  (n =? Z.of_nat (length long)) && (Nat.leb (length short) 53) && forallb (fun a => forallb (pairb n long short a) idxs) idxs.
Definition sets : list (Z * list Z * list Z) :=
  [(41, sfb_96_1024, sfb_96_128); (47, sfb_64_1024, sfb_64_128); (49, sfb_48_1024, sfb_48_128); (51, sfb_32_1024, sfb_48_128);
   (47, sfb_24_1024, sfb_24_128); (43, sfb_16_1024, sfb_16_128); (40, sfb_8_1024, sfb_8_128)].
Lemma sets_ok : forallb setb sets = true.
Proof. vm_compute. reflexivity. Qed.

(** The sets are those of the standard. *)
Definition ends_of (ws : list Z) : list Z := tops 0 ws.
Definition rateb (r : Z) : bool :=
  match bands_of r with
  | Got (n, long, short) => (n =? Z.of_nat (length long)) && zl_eqb long (ends_of (long_widths r)) && zl_eqb short (ends_of (short_widths r)) &&
      existsb (fun x => let '(m, l, s) := x in (m =? n) && zl_eqb l long && zl_eqb s short) sets
  | _ => false
  end.
Lemma rates_ok : forallb rateb twelve = true. Proof. vm_compute. reflexivity. Qed.
Lemma bands_in rate : let L := ends_of (long_widths (nominal rate)) in let R := ends_of (short_widths (nominal rate)) in
  bands_of rate = Got (Z.of_nat (length L), L, R) /\ In (Z.of_nat (length L), L, R) sets.
Proof.
  intros L R. pose proof rates_ok as F. rewrite forallb_forall in F. specialize (F _ (nominal_in rate)). unfold rateb in F.
  replace (bands_of (nominal rate)) with (bands_of rate) in F by (unfold bands_of; rewrite rate_nominal; reflexivity).
  destruct (bands_of rate) as [[[n long] short]| | | | | |]; try discriminate. rewrite !andb_true_iff in F. destruct F as [[[A B] C] D].
  apply Z.eqb_eq in A. apply zl_eqb_eq in B, C. fold L in B. fold R in C. subst long short. subst n. split; [reflexivity|].
  apply existsb_exists in D. destruct D as ([[m l] s] & I & E). rewrite !andb_true_iff in E. destruct E as [[E1 E2] E3].
  apply Z.eqb_eq in E1. apply zl_eqb_eq in E2, E3. subst. exact I.
Qed.

Lemma inb_in x l : inb x l = true -> In x l.
Proof. intros H. apply existsb_exists in H. destruct H as (y & I & E). apply Z.eqb_eq in E. subst. exact I. Qed.
Lemma piecesb_ok ends : forall sizes from, piecesb from sizes ends = true -> Forall (fun p => fst p < snd p /\ In (snd p) ends) (pieces from sizes).
Proof.
  induction sizes as [|t r IH]; intros from H; [constructor|]. cbn [piecesb] in H. rewrite !andb_true_iff in H. destruct H as [[A B] C].
  apply Z.ltb_lt in A. constructor; [cbn [fst snd]; split; [lia|apply inb_in, B]|apply IH, C].
Qed.
Lemma divb_ok b e ends sizes : divb b e ends sizes = true -> divides b e ends sizes.
Proof. unfold divb. rewrite andb_true_iff. intros [A B]. apply Z.eqb_eq in A. split; [exact A|apply piecesb_ok, B]. Qed.

Lemma short_least ends lim : forall pre, Forall (fun x => x < lim) pre -> short_band lim ends (Z.of_nat (length pre)) = -1 \/
  least (pre ++ ends) lim (short_band lim ends (Z.of_nat (length pre))).
Proof.
  induction ends as [|x r IH]; intros pre P; [left; reflexivity|]. cbn [short_band]. destruct (Z.leb_spec lim x) as [H|H].
  - right. split; [rewrite app_length; cbn [length]; lia|]. unfold line. replace (Z.to_nat (Z.of_nat (length pre) + 1 - 1)) with (length pre) by lia. split.
    + rewrite app_nth2 by lia. rewrite Nat.sub_diag. exact H.
    + intros j J. rewrite app_nth1 by lia. rewrite Forall_forall in P. apply P, nth_In. lia.
  - specialize (IH (pre ++ [x])). rewrite app_length in IH. cbn [length] in IH.
    replace (Z.of_nat (length pre + 1)) with (Z.of_nat (length pre) + 1) in IH by lia. rewrite <- app_assoc in IH. apply IH.
    apply Forall_app. split; [exact P|constructor; [exact H|constructor]].
Qed.

Lemma min_lowest wt fs : 2 <= fs -> igf_min wt fs = Got (lowest (if wt =? 2 then 512 else if wt =? 1 then 128 else 1024) fs).
Proof.
  intros H. unfold igf_min, lowest. assert (1 <= fs / 2) by (apply Z.div_le_lower_bound; lia).
  rewrite (proj2 (Z.eqb_neq _ _)) by lia. set (m := _ / _). rewrite Zmod_even. destruct (Z.even m); f_equal; lia.
Qed.

Lemma tiles_good s e hires tbl m : 1 <= s <= Z.of_nat (length tbl) -> 1 <= e <= Z.of_nat (length tbl) ->
  (s = e \/ line tbl s < line tbl e /\ tilesb s e hires tbl = true) ->
  exists sizes, tiles_of s e m hires tbl = Got sizes /\
    (if (m <? line tbl s) && (line tbl s <? line tbl e) then divides (line tbl s) (line tbl e) tbl sizes /\ (1 <= length sizes <= 4)%nat else sizes = []).
Proof.
  intros S E T. unfold tiles_of. rewrite !tab_ok by lia. cbn [obind].
  change (entry tbl (s - 1)) with (line tbl s). change (entry tbl (e - 1)) with (line tbl e).
  destruct ((m <? line tbl s) && (line tbl s <? line tbl e)) eqn:C; [|exists []; auto].
  apply andb_true_iff in C. destruct C as [_ C]. apply Z.ltb_lt in C. destruct T as [->|[_ T]]; [lia|].
  unfold tilesb in T. change (entry' tbl (s - 1)) with (line tbl s) in T. change (entry' tbl (e - 1)) with (line tbl e) in T.
  destruct (tile_loop _ _ _ _ _ _ _ _ _ _ _) as [t| | | | | |]; try discriminate. exists t. split; [reflexivity|].
  rewrite !andb_true_iff in T. destruct T as [[A B] D]. apply Nat.leb_le in B, D. split; [apply divb_ok, A|lia].
Qed.

Lemma idx_in a : 0 <= a <= 15 -> In a idxs.
Proof. intros H. assert (a = 0 \/ a = 1 \/ a = 2 \/ a = 3 \/ a = 4 \/ a = 5 \/ a = 6 \/ a = 7 \/ a = 8 \/ a = 9 \/ a = 10 \/ a = 11 \/ a = 12 \/ a = 13 \/ a = 14 \/ a = 15) by lia. unfold idxs. cbn [In]. intuition. Qed.

(** What a grid has to be: from band s to band e of the bands that end at [ends], with tiles
    unless it starts too low. *)
Definition laid_out (ends : list Z) (hires : bool) (s e m : Z) (g : grid) : Prop :=
  g_start g = s /\ g_stop g = e /\ g_min g = m /\
  exists sizes, tiles_of s e m hires ends = Got sizes /\ g_tiles g = Z.of_nat (length sizes) /\
    (if (m <? line ends s) && (line ends s <? line ends e) then divides (line ends s) (line ends e) ends sizes /\ (1 <= length sizes <= 4)%nat else sizes = []).

Lemma init_run rate a b hires : 2 <= rate -> 0 <= a <= 15 -> 0 <= b <= 15 ->
  let L := ends_of (long_widths (nominal rate)) in let R := ends_of (short_widths (nominal rate)) in let n := Z.of_nat (length L) in
  let s := first_band n a in let e := end_band n s b in
  exists g0 g1 g2 g3 s1 e1, igf_init rate a b hires = Got (g0, g1, g2, g3) /\
    11 <= s < e /\ e <= n <= 53 /\ laid_out L hires s e (lowest 1024 rate mod 256) g0 /\
    least R (line L s / 8) s1 /\ least R (line L e / 8) e1 /\ s1 <= e1 /\ laid_out R hires s1 e1 (lowest 128 rate mod 256) g1 /\
    (g_start g2, g_stop g2, g_tiles g2, g_min g2) = (s1, e1, g_tiles g1, lowest 512 rate mod 256) /\
    (g_start g3, g_stop g3, g_tiles g3, g_min g3) = (s1, e1, g_tiles g1, lowest 1024 rate mod 256).
Proof.
  intros HR A B L R n s e. destruct (bands_in rate) as [EB IB]. fold L R in EB, IB. fold n in EB, IB.
  pose proof sets_ok as F. rewrite forallb_forall in F. specialize (F _ IB). unfold setb in F. rewrite !andb_true_iff in F. destruct F as [[_ SN] F].
  apply Nat.leb_le in SN. rewrite forallb_forall in F. specialize (F a (idx_in a A)). rewrite forallb_forall in F. specialize (F b (idx_in b B)).
  unfold pairb in F. cbv zeta in F.
  assert (SE : start_long n a = s) by reflexivity.
  assert (EE : stop_long n s b = e). { unfold stop_long, e, end_band. destruct (b =? 15); [reflexivity|]. replace (n - (s + 1)) with (n - s - 1) by lia. reflexivity. }
  rewrite SE, EE in F. change (entry' L (s - 1)) with (line L s) in F. change (entry' L (e - 1)) with (line L e) in F.
  set (s1 := short_band (line L s / 8) R 0) in *. set (e1 := short_band (line L e / 8) R 0) in *.
  change (entry' R (s1 - 1)) with (line R s1) in F. change (entry' R (e1 - 1)) with (line R e1) in F.
  rewrite !andb_true_iff in F. destruct F as [[[[[[[[[[[[F1 F2] F3] F4] F5] F6] F7] F8] F9] F10] F11] F12] F13].
  apply Z.leb_le in F1, F3, F4, F5, F6, F7, F8. apply Z.ltb_lt in F2, F9.
  destruct (short_least R (line L s / 8) [] (Forall_nil _)) as [X|LS1]; [change (short_band (line L s / 8) R 0 = -1) in X; fold s1 in X; lia|].
  destruct (short_least R (line L e / 8) [] (Forall_nil _)) as [X|LE1]; [change (short_band (line L e / 8) R 0 = -1) in X; fold e1 in X; lia|].
  change (least R (line L s / 8) s1) in LS1. change (least R (line L e / 8) e1) in LE1.
  assert (U : forall x, 0 <= x < 256 -> u8 x = x) by (intros x X; apply Z.mod_small; exact X).
  destruct (tiles_good s e hires L (lowest 1024 rate mod 256)) as (t0 & T0 & D0); [unfold n in *; lia|unfold n in *; lia| |].
  { right. split; [exact F9|]. destruct hires; assumption. }
  destruct (tiles_good s1 e1 hires R (lowest 128 rate mod 256)) as (t1 & T1 & D1); [lia|lia| |].
  { apply orb_prop in F13. destruct F13 as [X|X]; [left; apply Z.eqb_eq, X|]. apply orb_prop in F10. destruct F10 as [Y|Y]; [left; apply Z.eqb_eq, Y|].
    right. apply andb_prop in X. apply Z.ltb_lt in Y. split; [exact Y|]. destruct hires; apply X. }
  set (gg := fun m => mkGrid s1 e1 (Z.of_nat (length t1)) (lowest m rate mod 256)).
  exists (mkGrid s e (Z.of_nat (length t0)) (lowest 1024 rate mod 256)), (gg 128), (gg 512), (gg 1024), s1, e1.
  split.
  { unfold igf_init. rewrite EB. cbn [obind]. unfold grids. rewrite SE, EE. rewrite !tab_ok by (unfold n in *; lia). cbn [obind].
    change (entry L (s - 1)) with (line L s). change (entry L (e - 1)) with (line L e). fold s1 e1. rewrite !min_lowest by exact HR. cbn [obind Z.eqb Pos.eqb].
    rewrite !(U s), !(U e), !(U s1), !(U e1) by lia. change (u8 (lowest 1024 rate)) with (lowest 1024 rate mod 256). change (u8 (lowest 128 rate)) with (lowest 128 rate mod 256).
    rewrite T0. cbn [obind]. rewrite T1. cbn [obind]. reflexivity. }
  split; [lia|]. split; [lia|]. split; [split; [reflexivity|split; [reflexivity|split; [reflexivity|]]]; exists t0; auto|].
  split; [exact LS1|]. split; [exact LE1|]. split; [exact F6|]. split; [|split; reflexivity].
  split; [reflexivity|split; [reflexivity|split; [reflexivity|]]]. exists t1. auto.
Qed.

(** ** The lowest line *)
Lemma lowest_small lines rate : 0 < lines <= 1024 -> 9036 <= rate -> 0 <= lowest lines rate < 256.
Proof.
  intros H1 H2. unfold lowest. assert (Q : 4518 <= rate / 2) by (apply Z.div_le_lower_bound; lia). set (q := rate / 2) in *.
  assert (M0 : 0 <= lines * 1125 / q) by (apply Z.div_pos; lia).
  assert (M : lines * 1125 / q <= 254).
  { apply Z.lt_succ_r. apply Z.div_lt_upper_bound; [lia|]. nia. }
  destruct (Z.even _); lia.
Qed.
Lemma lowest_exact rate a b hires g0 g1 g2 g3 : 9036 <= rate -> 0 <= a <= 15 -> 0 <= b <= 15 -> igf_init rate a b hires = Got (g0, g1, g2, g3) ->
  g_min g0 = lowest 1024 rate /\ g_min g1 = lowest 128 rate /\ g_min g2 = lowest 512 rate /\ g_min g3 = lowest 1024 rate.
Proof.
  intros HR A B E. destruct (init_run rate a b hires ltac:(lia) A B) as (h0 & h1 & h2 & h3 & s1 & e1 & E' & _ & _ & (_ & _ & M0 & _) & _ & _ & _ & (_ & _ & M1 & _) & P2 & P3).
  rewrite E in E'. injection E' as <- <- <- <-. injection P2 as _ _ _ M2. injection P3 as _ _ _ M3. rewrite M0, M1, M2, M3.
  pose proof (lowest_small 1024 rate ltac:(lia) HR). pose proof (lowest_small 128 rate ltac:(lia) HR). pose proof (lowest_small 512 rate ltac:(lia) HR).
  rewrite !Z.mod_small by lia. auto.
Qed.
Lemma lowest_wraps : exists g0 g1 g2 g3, igf_init 8000 0 15 false = Got (g0, g1, g2, g3) /\
  lowest 1024 8000 = 288 /\ g_min g0 = 32 /\ line sfb_8_1024 (g_start g0) = 132 /\ g_tiles g0 = 4.
Proof. eexists. eexists. eexists. eexists. split; [vm_compute; reflexivity|]. repeat split. Qed.

Lemma rate_one a b hires : 0 <= a <= 15 -> 0 <= b <= 15 -> igf_init 1 a b hires = Bad.
Proof.
  intros A B. destruct (bands_in 1) as [EB IB]. set (L := ends_of (long_widths (nominal 1))) in *. set (R := ends_of (short_widths (nominal 1))) in *.
  set (n := Z.of_nat (length L)) in *. pose proof sets_ok as F. rewrite forallb_forall in F. specialize (F _ IB). unfold setb in F. rewrite !andb_true_iff in F. destruct F as [[_ SN] F].
  rewrite forallb_forall in F. specialize (F a (idx_in a A)). rewrite forallb_forall in F. specialize (F b (idx_in b B)).
  unfold pairb in F. cbv zeta in F. rewrite !andb_true_iff in F. destruct F as [[[[[[[[[[[[F1 F2] F3] F4] F5] F6] F7] F8] F9] F10] F11] F12] F13].
  apply Z.leb_le in F1, F3. apply Z.ltb_lt in F2. unfold igf_init. rewrite EB. cbn [obind]. unfold grids. fold n.
  rewrite !tab_ok by (unfold n in *; lia). reflexivity.
Qed.

(** ** Empty ranges *)
Lemma empty_refused wt hires s tiles m tbl indep groups i b rest rc i' b' : wf b -> rest_bits b = false :: rest ->
  igf_levels wt hires (mkGrid s s tiles m) tbl indep groups i b = Got (rc, i', b') -> rc = -1.
Proof.
  intros W R. unfold igf_levels. pose proof (read_bits_ok 1 b W ltac:(lia)) as Q.
  assert (P : 0 <= r_pos b <= 7) by (destruct W as (? & ? & ? & ? & ?); lia).
  destruct Q as (b1 & E1 & _).
  { lia. }
  { assert (L : Z.of_nat (length (rest_bits b)) <= r_cnt b) by (unfold rest_bits; rewrite firstn_length; destruct W as (_ & _ & _ & ? & _); lia).
    rewrite R in L. cbn [length] in L. lia. }
  rewrite E1, R. change (Z.to_nat 1) with 1%nat. cbn [firstn]. change (val_of [false]) with 0. cbn [lift obind]. cbv zeta.
  destruct (swb_at _ _ _) as [x| | | | | |]; cbn [obind]; try discriminate. cbn [Z.eqb negb].
  destruct (first_symbol (rest_bits b1)) as [st bs]. destruct (wins _ _ _ _ _ _ _ _ _ _ _ _) as [[[[v lev] nz] k]| | | | | |]; cbn [obind]; try discriminate.
  destruct (lift (skip_bits (k - 14) b1)) as [b2| | | | | |]; cbn [obind]; try discriminate.
  cbn [g_start g_stop]. rewrite Z.eqb_refl. cbn [orb]. intros X. injection X. auto.
Qed.
Lemma empty_short hires : exists g0 s t m g2 g3, igf_init 48000 15 0 hires = Got (g0, mkGrid s s t m, g2, g3) /\ g_start g0 < g_stop g0.
Proof. destruct hires; (eexists; eexists; eexists; eexists; eexists; eexists; split; [vm_compute; reflexivity|reflexivity]). Qed.

(** The ranges are ones for which the levels are read safely. *)
Lemma init_in_range rate a b hires g0 g1 g2 g3 : 2 <= rate -> 0 <= a <= 15 -> 0 <= b <= 15 -> igf_init rate a b hires = Got (g0, g1, g2, g3) ->
  forall tbl, (length (short_widths (nominal rate)) <= length tbl)%nat ->
  in_range g0 (ends_of (long_widths (nominal rate))) /\ in_range g1 tbl /\ in_range g2 tbl /\ in_range g3 tbl.
Proof.
  intros HR A B E tbl TL. destruct (init_run rate a b hires HR A B) as (h0 & h1 & h2 & h3 & s1 & e1 & E' & X1 & X2 & (M0 & M1 & _) & (Y1 & _) & (Y2 & _) & Y3 & (M2 & M3 & _) & P2 & P3).
  rewrite E in E'. injection E' as <- <- <- <-. injection P2 as P21 P22 _ _. injection P3 as P31 P32 _ _.
  assert (LE : length (ends_of (short_widths (nominal rate))) = length (short_widths (nominal rate))) by apply tops_len.
  assert (SB : (length (short_widths (nominal rate)) <= 15)%nat).
  { pose proof (nominal_in rate) as N. cbn [twelve In] in N. repeat (destruct N as [<-|N]; [vm_compute; lia|]). destruct N. }
  rewrite LE in *. unfold in_range. rewrite M0, M1, M2, M3, P21, P22, P31, P32. lia.
Qed.
