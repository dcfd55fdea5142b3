(** * Lem_CoreIcs: window information is read as sent *)

From Coq Require Import ZArith List Lia Bool.
From Verif Require Import Bits BitBuf Prog Wp Loops Config CoreIcs Spec_CoreIcs Lem_AsiRT Lem_MctBand.
Import ListNotations.
Open Scope list_scope.
Open Scope Z_scope.

Notation len := List.length.

Lemma select_meant prev code : 0 <= code < 4 -> win_seq_select code prev = meant prev code.
Proof.
  intros H. assert (code = 0 \/ code = 1 \/ code = 2 \/ code = 3) as [-> | [-> | [-> | ->]]] by lia; unfold win_seq_select, meant, short_end; reflexivity.
Qed.

Ltac split_list l H := repeat (destruct l as [|? l]; [discriminate H|]); destruct l; [|discriminate H].

Lemma ends_run same gd bs : len same = 7%nat -> len gd = 8%nat ->
  runA (grp_ends (val_of same) gd) bs = Done (ends 0 (runs 1 same) ++ skipn (len (runs 1 same)) gd, bs).
Proof.
  intros H1 H2. split_list same H1. split_list gd H2.
  repeat match goal with b : bool |- _ => destruct b end; reflexivity.
Qed.

Lemma lens_run same tail gl bs : len same = 7%nat -> len gl = 8%nat ->
  runA (grp_lens 9 (ends 0 (runs 1 same) ++ tail) 0 0 gl) bs =
  Done ((Z.of_nat (len (runs 1 same)), runs 1 same ++ skipn (len (runs 1 same)) gl), bs).
Proof.
  intros H1 H2. split_list same H1. split_list gl H2.
  repeat match goal with b : bool |- _ => destruct b end; reflexivity.
Qed.

Lemma runs_facts same : len same = 7%nat -> zsum (runs 1 same) = 8 /\ Forall (fun n => 1 <= n) (runs 1 same) /\ (1 <= len (runs 1 same) <= 8)%nat.
Proof.
  assert (G : forall l c, 1 <= c -> zsum (runs c l) = c + Z.of_nat (len l) /\ Forall (fun n => 1 <= n) (runs c l) /\ (1 <= len (runs c l) <= S (len l))%nat).
  { induction l as [|b l IH]; intros c Hc.
    - cbn. repeat split; try lia. repeat constructor; lia.
    - destruct b; cbn [runs zsum fold_right len].
      + destruct (IH (c + 1) ltac:(lia)) as (A & B & C). unfold zsum in *. repeat split; auto; lia.
      + destruct (IH 1 ltac:(lia)) as (A & B & C). unfold zsum in *. cbn [fold_right len]. repeat split; try lia. constructor; auto. }
  intros H. destruct (G same 1 ltac:(lia)) as (A & B & C). rewrite H in *. repeat split; auto; try lia.
Qed.

(** ** The table of band ends *)
Fixpoint scan (off n : Z) (ws : list Z) : list Z :=
  match ws with [] => [] | w :: r => (off + w * n) :: scan (off + w * n) n r end.

Lemma scan_len n ws : forall off, len (scan off n ws) = len ws.
Proof. induction ws as [|w ws IH]; intros off; cbn; auto. Qed.

Lemma scan_widths n offs : forall off from, scan off n (widths from offs) = map (fun o => off + (o - from) * n) offs.
Proof.
  induction offs as [|o offs IH]; intros off from; cbn [widths scan map]; auto. f_equal. rewrite IH. apply map_ext. intros x. lia.
Qed.

Lemma last_dflt {A} (l : list A) : forall x d e, last (x :: l) d = last (x :: l) e.
Proof. induction l as [|y l IH]; intros x d e; [reflexivity|]. rewrite !last_cons2. apply IH. Qed.

Lemma sum_widths offs : forall from, zsum (widths from offs) = last offs from - from.
Proof.
  induction offs as [|o offs IH]; intros from; [cbn; lia|]. change (zsum (widths from (o :: offs))) with ((o - from) + zsum (widths o offs)).
  rewrite IH. destruct offs as [|p offs]; [cbn; lia|]. rewrite last_cons2. rewrite (last_dflt offs p o from). lia.
Qed.

Lemma upd1_app {A} (a b : list A) x v : upd1 (a ++ x :: b) (len a) v = a ++ v :: b.
Proof.
  Transparent upd1. unfold upd1. Opaque upd1. rewrite firstn_app, Nat.sub_diag, firstn_all. cbn [firstn]. rewrite app_nil_r.
  f_equal. f_equal. rewrite skipn_app. rewrite skipn_all2 by lia. replace (S (len a) - len a)%nat with 1%nat by lia. reflexivity.
Qed.

Lemma band_loop n ws2 : forall pre off done tbl bs, (len ws2 <= len tbl)%nat ->
  runA (forP (len ws2) (len pre) (grp_band (pre ++ ws2) n) (off, Z.of_nat (len done), done ++ tbl)) bs =
  Done ((off + zsum ws2 * n, Z.of_nat (len done + len ws2), done ++ map s16 (scan off n ws2) ++ skipn (len ws2) tbl), bs).
Proof.
  induction ws2 as [|w ws2 IH]; intros pre off done tbl bs H.
  - cbn. rewrite Nat.add_0_r. repeat f_equal. lia.
  - destruct tbl as [|x tbl]; [cbn in H; lia|]. cbn [len forP]. unfold grp_band at 1. cbv beta iota. rewrite !bind_assoc.
    rewrite (aget_run _ _ w) by (rewrite nth_error_app2 by lia; rewrite Nat.sub_diag; reflexivity).
    rewrite bind_assoc, aset_run by (rewrite app_length; cbn; lia). rewrite upd1_app. cbn [bind].
    replace (pre ++ w :: ws2) with ((pre ++ [w]) ++ ws2) by (rewrite <- app_assoc; reflexivity).
    replace (S (len pre)) with (len (pre ++ [w])) by (rewrite app_length; cbn; lia).
    replace (done ++ s16 (off + w * n) :: tbl) with ((done ++ [s16 (off + w * n)]) ++ tbl) by (rewrite <- app_assoc; reflexivity).
    replace (Z.of_nat (len done) + 1) with (Z.of_nat (len (done ++ [s16 (off + w * n)]))) by (rewrite app_length; cbn; lia).
    rewrite IH by (cbn in H; lia). rewrite !app_length. cbn [len]. unfold zsum. cbn [fold_right map scan skipn]. rewrite <- !app_assoc.
    f_equal. f_equal. f_equal. f_equal; [lia|f_equal; lia].
Qed.

Fixpoint scans (off : Z) (ws gs : list Z) : list Z :=
  match gs with [] => [] | n :: r => scan off n ws ++ scans (off + zsum ws * n) ws r end.

Lemma scans_len ws gs : forall off, len (scans off ws gs) = (len gs * len ws)%nat.
Proof. induction gs as [|n gs IH]; intros off; cbn [scans len]; auto. rewrite app_length, scan_len, IH. lia. Qed.

Lemma group_loop ws gs : forall pre tail off done tbl bs, (len gs * len ws <= len tbl)%nat ->
  runA (forP (len gs) (len pre) (fun g st => l <- aget (pre ++ gs ++ tail) (Z.of_nat g) ;; forP (len ws) 0 (grp_band ws l) st)
        (off, Z.of_nat (len done), done ++ tbl)) bs =
  Done ((off + zsum ws * zsum gs, Z.of_nat (len done + len gs * len ws),
         done ++ map s16 (scans off ws gs) ++ skipn (len gs * len ws) tbl), bs).
Proof.
  induction gs as [|n gs IH]; intros pre tail off done tbl bs H.
  - cbn. rewrite Nat.add_0_r. repeat f_equal. lia.
  - cbn [len forP]. rewrite bind_assoc. rewrite (aget_run _ _ n) by (rewrite nth_error_app2 by lia; rewrite Nat.sub_diag; reflexivity).
    rewrite runA_bind. pose proof (band_loop n ws [] off done tbl bs) as B. cbn [len app] in B. rewrite B by (cbn in H; lia). clear B.
    replace (pre ++ (n :: gs) ++ tail) with ((pre ++ [n]) ++ gs ++ tail) by (rewrite <- app_assoc; reflexivity).
    replace (S (len pre)) with (len (pre ++ [n])) by (rewrite app_length; cbn; lia).
    rewrite (app_assoc done). replace (Z.of_nat (len done + len ws)) with (Z.of_nat (len (done ++ map s16 (scan off n ws)))) by (rewrite app_length, map_length, scan_len; reflexivity).
    rewrite IH by (rewrite skipn_length; cbn in H; lia).
    rewrite app_length, map_length, scan_len. cbn [scans]. rewrite map_app, <- !app_assoc. unfold zsum. cbn [fold_right len].
    f_equal. f_equal. f_equal; [f_equal; [lia|f_equal; lia]|]. do 3 f_equal. rewrite skipn_skipn_add. f_equal.
Qed.

Lemma nth_scans ws gs : forall off g b n, nth_error gs g = Some n -> (b < len ws)%nat ->
  nth_error (scans off ws gs) (g * len ws + b) = nth_error (scan (off + zsum ws * zsum (firstn g gs)) n ws) b.
Proof.
  induction gs as [|m gs IH]; intros off g b n H B; [destruct g; discriminate|]. destruct g as [|g]; cbn [nth_error] in H.
  - injection H as ->. cbn [scans firstn Nat.mul Nat.add]. rewrite nth_error_app1 by (rewrite scan_len; lia). do 2 f_equal. cbn. lia.
  - cbn [scans firstn]. rewrite nth_error_app2 by (rewrite scan_len; lia). rewrite scan_len.
    replace (S g * len ws + b - len ws)%nat with (g * len ws + b)%nat by lia. rewrite (IH _ _ _ n) by auto.
    do 2 f_equal. change (zsum (m :: firstn g gs)) with (m + zsum (firstn g gs)). lia.
Qed.

Lemma scans_small offs gs g b n : Forall (fun o => 0 <= o <= 128) offs -> Forall (fun n => 1 <= n) gs -> zsum gs = 8 ->
  nth_error gs g = Some n -> (b < len offs)%nat ->
  nth_error (map s16 (scans 0 (widths 0 offs) gs)) (g * len offs + b) = Some (band_end offs gs g b).
Proof.
  intros F P S8 Hg Hb. assert (LW : forall l f, len (widths f l) = len l) by (induction l; intros; cbn; auto).
  assert (E : nth_error (scans 0 (widths 0 offs) gs) (g * len offs + b) = Some (band_end offs gs g b)).
  { rewrite <- (LW offs 0) at 1. rewrite (nth_scans _ _ _ _ _ n) by (rewrite ?LW; auto).
    rewrite scan_widths, sum_widths. rewrite nth_error_map. rewrite (nth_error_nth' _ 0 Hb). cbn [option_map]. f_equal.
    unfold band_end. rewrite (nth_error_nth _ _ 0 Hg). lia. }
  rewrite nth_error_map, E. cbn [option_map]. f_equal.
  assert (LO : 0 <= last offs 0 <= 128).
  { destruct offs as [|o offs]; [cbn; lia|]. assert (In (last (o :: offs) 0) (o :: offs)) as I.
    { clear. revert o. induction offs as [|p offs IH]; intros o; [left; reflexivity|]. rewrite last_cons2. right. apply IH. }
    rewrite Forall_forall in F. exact (F _ I). }
  assert (BO : 0 <= nth b offs 0 <= 128) by (rewrite Forall_forall in F; apply F, nth_In; exact Hb).
  assert (Q : zsum (firstn g gs) + n <= 8 /\ 0 <= zsum (firstn g gs) /\ 1 <= n).
  { rewrite <- S8. clear - P Hg. revert g n Hg. induction gs as [|m gs IH]; intros g n Hg; [destruct g; discriminate|].
    apply Forall_cons_iff in P. destruct P as [P1 P]. assert (Z0 : 0 <= zsum gs) by (clear - P; induction P; cbn; unfold zsum in *; lia).
    destruct g as [|g]; cbn [nth_error] in Hg.
    - injection Hg as ->. cbn [firstn]. change (zsum (n :: gs)) with (n + zsum gs). change (zsum []) with 0. lia.
    - cbn [firstn]. change (zsum (m :: gs)) with (m + zsum gs). change (zsum (m :: firstn g gs)) with (m + zsum (firstn g gs)).
      specialize (IH P g n Hg). lia. }
  unfold band_end. rewrite (nth_error_nth _ _ 0 Hg). apply to_s_id; [lia|]. cbn. nia.
Qed.

(** ** The group tables *)
Definition si_dim (si : sinfo) : Prop := len (g_len si) = 8%nat /\ len (g_tbl si) = 125%nat.

Definition holds_groups (offs gs : list Z) (si : sinfo) : Prop :=
  g_num si = Z.of_nat (len gs) /\ firstn (len gs) (g_len si) = gs /\
  forall g b, (g < len gs)%nat -> (b < len offs)%nat ->
    nth_error (g_tbl si) (g * len offs + b) = Some (band_end offs gs g b).

Lemma widths_len l : forall f, len (widths f l) = len l.
Proof. induction l; intros; cbn; auto. Qed.

Lemma calc_run offs same tail si bs : len same = 7%nat -> si_dim si -> (len offs <= 15)%nat ->
  Forall (fun o => 0 <= o <= 128) offs ->
  exists si', runA (calc_grp_offset (widths 0 offs) (ends 0 (runs 1 same) ++ tail) si) bs = Done (si', bs) /\
    si_dim si' /\ holds_groups offs (runs 1 same) si'.
Proof.
  intros H [D1 D2] L F. destruct (runs_facts same H) as (S8 & P & N). set (gs := runs 1 same) in *.
  unfold calc_grp_offset. rewrite runA_bind. unfold gs at 1. rewrite lens_run by auto. fold gs. cbv beta iota. rewrite Nat2Z.id.
  unfold grp_offsets. rewrite bind_assoc, runA_bind.
  assert (B : (len gs * len (widths 0 offs) <= len (g_tbl si))%nat) by (rewrite widths_len, D2; nia).
  pose proof (group_loop (widths 0 offs) gs [] (skipn (len gs) (g_len si)) 0 [] (g_tbl si) bs B) as G. cbn [len app] in G.
  change (Z.of_nat 0) with 0 in G. rewrite G. clear G. cbn [bind]. eexists. split; [reflexivity|]. split; [split|split; [|split]]; cbn [g_len g_tbl g_num].
  - rewrite app_length, skipn_length. lia.
  - rewrite app_length, map_length, scans_len, skipn_length. lia.
  - reflexivity.
  - rewrite firstn_app, Nat.sub_diag, firstn_all. cbn [firstn]. apply app_nil_r.
  - intros g b Hg Hb. rewrite nth_error_app1 by (rewrite map_length, scans_len, widths_len; nia).
    destruct (nth_error gs g) as [n|] eqn:E; [|apply nth_error_None in E; lia].
    apply (scans_small offs gs g b n); auto.
Qed.

(** ** ics_info *)
Definition holds_win (prev : Z) (v : winfo) (w : wst) : Prop :=
  w_seq w = meant prev (v_code v) /\ w_shape w = v_shape v /\ w_max w = v_max v /\
  firstn (len (groups v)) (w_gd w) = ends 0 (groups v) /\ len (w_gd w) = 8%nat.

Lemma meant_two prev c : 0 <= c < 4 -> (meant prev c =? 2) = (c =? 2).
Proof.
  intros H. unfold meant. assert (c = 0 \/ c = 1 \/ c = 2 \/ c = 3) as [-> | [-> | [-> | ->]]] by lia; cbn [Z.eqb andb]; try reflexivity.
  cbn. destruct (short_end prev); reflexivity.
Qed.

Lemma ics_run nl offs prev v w si rest : valid_win nl (Z.of_nat (len offs)) v -> len (w_gd w) = 8%nat -> si_dim si ->
  (len offs <= 15)%nat -> nl < 64 -> Forall (fun o => 0 <= o <= 128) offs ->
  exists w' si', runA (ics_info nl (widths 0 offs) prev w si) (enc_win v ++ rest) = Done ((0, (w', si')), rest) /\
    holds_win prev v w' /\ si_dim si' /\ (if v_code v =? 2 then holds_groups offs (groups v) si' else si' = si).
Proof.
  intros (V1 & V2 & V3 & V4) G D L NL F. unfold ics_info, enc_win. rewrite <- !app_assoc.
  rewrite (runA_rdb 2 2) by (try reflexivity; lia). cbv zeta. rewrite select_meant by lia.
  replace (meant prev (v_code v) =? -1) with false by (symmetry; apply Z.eqb_neq; unfold meant; destruct ((v_code v =? 1) && short_end prev); lia).
  rewrite (runA_rdb 1 1) by (try reflexivity; lia). rewrite meant_two by lia. cbn [w_gd w_shape w_max].
  unfold holds_win, groups. destruct (Z.eqb_spec (v_code v) 2) as [E2|N2].
  - destruct V4 as [V4 V5]. rewrite <- app_assoc. rewrite (runA_rdb 4 4) by (try reflexivity; lia).
    replace (v_same v ++ rest) with (bits_of 7 (val_of (v_same v)) ++ rest) by (rewrite <- V5, bits_of_val; reflexivity).
    assert (R := val_of_range (v_same v)). rewrite V5 in R. change (2 ^ Z.of_nat 7) with 128 in R.
    rewrite (runA_rdb 7 7) by (try reflexivity; lia). rewrite widths_len.
    replace (Z.of_nat (len offs) <? v_max v) with false by (symmetry; apply Z.ltb_ge; lia).
    rewrite runA_bind, ends_run by auto. cbv beta iota.
    destruct (calc_run offs (v_same v) (skipn (len (runs 1 (v_same v))) (w_gd w)) si rest V5 D L F) as (si' & X & D' & H').
    rewrite runA_bind, X. eexists _, si'. split; [reflexivity|]. cbn [w_seq w_shape w_max w_gd].
    destruct (runs_facts _ V5) as (_ & _ & N8).
    assert (LE : forall l f, len (ends f l) = len l) by (induction l; intros; cbn; auto).
    repeat split; auto; try apply D'; try apply H'.
    + rewrite firstn_app, LE, Nat.sub_diag. cbn [firstn]. rewrite app_nil_r. apply firstn_all2. rewrite LE. lia.
    + rewrite app_length, LE, skipn_length. lia.
  - rewrite (runA_rdb 6 6) by (try reflexivity; lia). destruct (w_gd w) as [|g0 gd] eqn:EG; [cbn in G; lia|].
    change 0 with (Z.of_nat 0) at 1. rewrite aset_run by (cbn; lia).
    change (upd1 (g0 :: gd) 0 1) with (upd1 ([] ++ g0 :: gd) (len (@nil Z)) 1). rewrite upd1_app. cbn [app].
    replace (nl <? v_max v) with false by (symmetry; apply Z.ltb_ge; lia).
    eexists _, si. split; [reflexivity|]. cbn in *. repeat split; auto; apply D.
Qed.
