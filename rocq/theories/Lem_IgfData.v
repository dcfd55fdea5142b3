(** * Lem_IgfData: tiles and whitening are read as sent *)

From Coq Require Import ZArith List Lia Bool.
From Verif Require Import Bits BitBuf BitWrite Prog Wp Config Igf IgfData Spec_IgfData Lem_Asi Spec_Asi Lem_AsiRT Lem_MhasProps Lem_CorePair.
Import ListNotations.
Open Scope Z_scope.

Lemma white_run {A} w (k : Z -> prog A) rest : is_white w -> runA (bind whitening k) (white_code w ++ rest) = runA (k w) rest.
Proof.
  intros [->|[->| ->]]; unfold whitening, white_code; cbn [Z.eqb Pos.eqb app]; rewrite bind_assoc, run1; cbn [b2z Z.eqb Pos.eqb];
    [reflexivity| |]; rewrite bind_assoc, run1; reflexivity.
Qed.
Lemma whites_run {A} l : Forall is_white l -> forall (k : list Z -> prog A) rest,
  runA (bind (rd_n (length l) whitening) k) (flat_map white_code l ++ rest) = runA (k l) rest.
Proof.
  induction l as [|w l IH]; intros F k rest; [reflexivity|]. cbn [length rd_n flat_map]. rewrite bind_assoc, <- app_assoc.
  rewrite white_run by exact (Forall_inv F). rewrite bind_assoc. rewrite (IH (Forall_inv_tail F)). reflexivity.
Qed.
Lemma tiles_run {A} l : Forall (fun t => 0 <= t <= 3) l -> forall (k : list Z -> prog A) rest,
  runA (bind (rd_n (length l) (rd 2)) k) (flat_map (bits_of 2) l ++ rest) = runA (k l) rest.
Proof.
  induction l as [|w l IH]; intros F k rest; [reflexivity|]. cbn [length rd_n flat_map]. rewrite bind_assoc, <- app_assoc.
  pose proof (Forall_inv F) as X. cbv beta in X. rewrite (runA_rdb 2 2) by (try reflexivity; try lia; change (2 ^ 2) with 4; lia).
  rewrite bind_assoc. rewrite (IH (Forall_inv_tail F)). reflexivity.
Qed.

Lemma over_four l : (length l <= 4)%nat -> over (repeat 0 4) 0 l = four 0 l.
Proof.
  intros H. destruct l as [|a [|b [|c [|d [|e l]]]]]; reflexivity.
Qed.
Lemma cells_four x nt l : length l = 4%nat -> (nt <= 4)%nat -> cells x nt l = four x (firstn nt l).
Proof. intros L N. unfold cells, four. rewrite firstn_length, L. f_equal. f_equal. lia. Qed.
Lemma cells_full x l : (length l <= 4)%nat -> cells x (length l) l = four x l.
Proof. intros N. unfold cells, four. rewrite firstn_all. reflexivity. Qed.

Lemma data_run wt nt uw ut indep i f rest : (1 <= nt <= 4)%nat -> length (i_ptile i) = 4%nat -> length (i_pwhite i) = 4%nat ->
  valid_fill indep nt f ->
  let white := uw && negb (wt =? 1) in
  let flat := ut && negb (wt =? 1) in
  let tile := four 3 (tiles_used f nt (i_ptile i)) in
  let wh := four 0 (whites_used white f nt (i_pwhite i)) in
  runA (igf_data wt nt uw ut indep i) (enc_fill indep white flat f ++ rest) =
  Done (mkIst (i_env i) (i_win i) tile wh (i_zero i) tile (i_lev i) wh (if flat then b2z (f_flat f) else i_tnf i), rest).
Proof.
  intros N LT LW [VT VW] white flat tile wh. unfold igf_data. rewrite (proj2 (Z.ltb_ge _ _)) by lia. fold white. fold flat.
  assert (WH : wh = four 0 (whites_used white f nt (i_pwhite i))) by reflexivity.
  assert (TL : tile = four 3 (tiles_used f nt (i_ptile i))) by reflexivity. clearbody tile wh white flat.
  set (F := fun t : list Z => bind _ _).
  assert (FIN : forall t, cells 3 nt t = tile -> runA (F t) ((if white then
     match f_white f with
     | KeepWhite => [true]
     | OneWhite w => (if indep then [] else [false]) ++ white_code w ++ [false]
     | EachWhite l => (if indep then [] else [false]) ++ white_code (hd 0 l) ++ [true] ++ flat_map white_code (tl l)
     end
   else []) ++ (if flat then [f_flat f] else []) ++ rest) =
   Done (mkIst (i_env i) (i_win i) tile wh (i_zero i) tile (i_lev i) wh (if flat then b2z (f_flat f) else i_tnf i), rest)).
  { intros t ET. unfold F. clear F. rewrite ET. set (G := fun w : list Z => bind _ _).
    assert (FG : forall w, w = wh -> runA (G w) ((if flat then [f_flat f] else []) ++ rest) =
      Done (mkIst (i_env i) (i_win i) tile wh (i_zero i) tile (i_lev i) wh (if flat then b2z (f_flat f) else i_tnf i), rest)).
    { intros w ->. unfold G. destruct flat; cbn [app]; [rewrite run1|]; reflexivity. }
    clearbody G. unfold whites_used in WH. destruct white.
    - destruct (f_white f) as [|w|l].
      + rewrite VW. cbn [app]. rewrite bind_assoc, run1. cbn [b2z Z.eqb Pos.eqb].
        cbn [bind].
        apply FG. rewrite WH. rewrite over_four by (rewrite firstn_length; lia). f_equal. unfold cells. rewrite firstn_app, firstn_firstn, firstn_length, LW.
        replace (nt - Nat.min nt 4)%nat with 0%nat by lia. rewrite Nat.min_id. cbn [firstn]. apply app_nil_r.
      + assert (X : forall r, runA (bind (bind (if indep then Ret 0 else rd 1) (fun kw => if kw =? 0 then bind whitening (fun w0 => bind (rd 1) (fun d => if d =? 1 then bind (rd_n (nt - 1) whitening) (fun r => Ret (over (repeat 0 4) 0 (w0 :: r))) else Ret (over (repeat 0 4) 0 (repeat w0 (Nat.max 1 nt))))) else Ret (over (repeat 0 4) 0 (firstn nt (cells 0 nt (i_pwhite i)))))) G)
          (((if indep then [] else [false]) ++ white_code w ++ [false]) ++ r) = runA (G (over (repeat 0 4) 0 (repeat w (Nat.max 1 nt)))) r).
        { intros r. rewrite <- !app_assoc. rewrite bind_assoc.
          destruct indep; cbn [app bind]; [|rewrite run1]; cbn [b2z Z.eqb]; rewrite bind_assoc, white_run by exact VW; rewrite bind_assoc, run1; reflexivity. }
        rewrite X. apply FG. rewrite WH. rewrite over_four by (rewrite repeat_length; lia). f_equal. f_equal. lia.
      + destruct VW as [VL VF]. destruct l as [|w l]; [cbn [length] in VL; lia|]. cbn [hd tl].
        assert (X : forall r, runA (bind (bind (if indep then Ret 0 else rd 1) (fun kw => if kw =? 0 then bind whitening (fun w0 => bind (rd 1) (fun d => if d =? 1 then bind (rd_n (nt - 1) whitening) (fun r => Ret (over (repeat 0 4) 0 (w0 :: r))) else Ret (over (repeat 0 4) 0 (repeat w0 (Nat.max 1 nt))))) else Ret (over (repeat 0 4) 0 (firstn nt (cells 0 nt (i_pwhite i)))))) G)
          (((if indep then [] else [false]) ++ white_code w ++ [true] ++ flat_map white_code l) ++ r) = runA (G (over (repeat 0 4) 0 (w :: l))) r).
        { intros r. rewrite <- !app_assoc. rewrite bind_assoc. replace (nt - 1)%nat with (length l) by (cbn [length] in VL; lia).
          destruct indep; cbn [app bind]; [|rewrite run1]; cbn [b2z Z.eqb]; rewrite bind_assoc, white_run by exact (Forall_inv VF); rewrite bind_assoc, run1;
            cbn [b2z Z.eqb Pos.eqb]; rewrite bind_assoc, whites_run by exact (Forall_inv_tail VF); reflexivity. }
        rewrite X. apply FG. rewrite WH. apply over_four. lia.
    - cbn [app bind]. apply FG. rewrite WH. unfold four. rewrite repeat_length, <- repeat_app. f_equal. lia. }
  clearbody F. unfold enc_fill. rewrite <- !app_assoc. unfold tiles_used in TL. destruct (f_tiles f) as [|l].
  - rewrite VT in *. cbn [app]. rewrite run1. cbn [b2z Z.eqb Pos.eqb bind]. apply FIN. rewrite TL. apply cells_four; [exact LT|lia].
  - destruct VT as [VL VF]. assert (X : forall r, runA (bind (if indep then Ret 0 else rd 1) (fun keep => bind (if keep =? 0 then rd_n nt (rd 2) else Ret (i_ptile i)) F))
      (((if indep then [] else [false]) ++ flat_map (bits_of 2) l) ++ r) = runA (F l) r).
    { intros r. rewrite <- !app_assoc. rewrite <- VL. destruct indep; cbn [app bind]; [|rewrite run1]; cbn [b2z Z.eqb]; apply tiles_run; exact VF. }
    rewrite <- app_assoc in *. rewrite app_assoc. rewrite X. apply FIN. rewrite TL, <- VL. apply cells_full. lia.
Qed.

Lemma data_exec wt nt uw ut indep i f s rest : (1 <= nt <= 4)%nat -> length (i_ptile i) = 4%nat -> length (i_pwhite i) = 4%nat ->
  valid_fill indep nt f -> wf s -> rest_bits s = enc_fill indep (uw && negb (wt =? 1)) (ut && negb (wt =? 1)) f ++ rest ->
  let white := uw && negb (wt =? 1) in
  let flat := ut && negb (wt =? 1) in
  let tile := four 3 (tiles_used f nt (i_ptile i)) in
  let wh := four 0 (whites_used white f nt (i_pwhite i)) in
  exists s', exec (igf_data wt nt uw ut indep i) s =
    Done (mkIst (i_env i) (i_win i) tile wh (i_zero i) tile (i_lev i) wh (if flat then b2z (f_flat f) else i_tnf i), s') /\
    wf s' /\ rest_bits s' = rest.
Proof.
  intros N LT LW V W R white flat tile wh. apply exec_of_run; [exact W|]. rewrite R. apply data_run; assumption.
Qed.

(** ** Safety *)
Definition is_tile (t : Z) : Prop := 0 <= t <= 3.
Definition orderly (i : ist) : Prop :=
  length (i_ptile i) = 4%nat /\ Forall is_tile (i_ptile i) /\ length (i_pwhite i) = 4%nat /\ Forall is_white (i_pwhite i).

Lemma wp_whitening : wp whitening is_white.
Proof.
  unfold whitening. apply wp_bindi, wp_rd; [lia|]. intros v V. destruct (v =? 1); [|left; reflexivity].
  apply wp_bindi, wp_rd; [lia|]. intros w _. cbn [wp]. unfold is_white. destruct (w =? 1); auto.
Qed.
Lemma wp_rd_n n p P : wp p P -> wp (rd_n n p) (fun l => length l = n /\ Forall P l).
Proof.
  intros H. induction n as [|n IH]; [split; [reflexivity|constructor]|]. cbn [rd_n]. apply wp_bindi. eapply wp_mono; [|exact H].
  intros x X. cbv beta. apply wp_bindi. eapply wp_mono; [|exact IH]. intros l [L F]. cbn [wp]. split; [cbn [length]; lia|constructor; assumption].
Qed.
Lemma wp_opt (c : bool) (Q : Z -> Prop) : (forall v, Q v) -> wp (if c then Ret 0 else rd 1) Q.
Proof. intros H. destruct c; [apply H|]. apply wp_rd; [lia|]. intros; apply H. Qed.
Lemma firstn_all_P {A} (P : A -> Prop) n l : Forall P l -> Forall P (firstn n l).
Proof. intros F. apply Forall_forall. intros x X. rewrite Forall_forall in F. apply F. rewrite <- (firstn_skipn n l). apply in_or_app. left. exact X. Qed.
Lemma repeat_P {A} (P : A -> Prop) x n : P x -> Forall P (repeat x n).
Proof. intros H. apply Forall_forall. intros y Y. apply repeat_spec in Y. subst. exact H. Qed.
Lemma four_white l : (length l <= 4)%nat -> Forall is_white l -> length (four 0 l) = 4%nat /\ Forall is_white (four 0 l).
Proof.
  intros L F. unfold four. rewrite app_length, repeat_length. split; [lia|]. apply Forall_app. split; [exact F|apply repeat_P; left; reflexivity].
Qed.

Lemma data_wp wt nt uw ut indep i : (nt <= 4)%nat -> orderly i ->
  wp (igf_data wt nt uw ut indep i) (fun i' => orderly i' /\ i_tile i' = i_ptile i' /\ i_white i' = i_pwhite i' /\
    i_env i' = i_env i /\ i_win i' = i_win i /\ i_lev i' = i_lev i /\ skipn nt (i_tile i') = repeat 3 (4 - nt)).
Proof.
  intros N (O1 & O2 & O3 & O4). unfold igf_data. rewrite (proj2 (Z.ltb_ge _ _)) by lia. apply wp_bindi, wp_opt. intros keep.
  apply wp_bindi. eapply wp_mono with (Q := fun t => (nt <= length t)%nat /\ Forall is_tile t).
  2:{ destruct (keep =? 0); [|cbn [wp]; split; [lia|exact O2]]. eapply wp_mono; [|apply (wp_rd_n nt (rd 2) is_tile); apply wp_rd; [lia|]].
      - intros l [L F]. split; [lia|exact F].
      - intros v V. change (2 ^ 2) with 4 in V. unfold is_tile. lia. }
  intros t [TL TF]. cbv beta zeta.
  assert (CL : length (cells 3 nt t) = 4%nat) by (unfold cells; rewrite app_length, firstn_length, repeat_length; lia).
  assert (CF : Forall is_tile (cells 3 nt t)) by (unfold cells; apply Forall_app; split; [apply firstn_all_P; exact TF|apply repeat_P; unfold is_tile; lia]).
  assert (CS : skipn nt (cells 3 nt t) = repeat 3 (4 - nt)).
  { unfold cells. rewrite skipn_app, firstn_length, Nat.min_l, Nat.sub_diag by lia. rewrite skipn_all2 by (rewrite firstn_length; lia). reflexivity. }
  apply wp_bindi. eapply wp_mono with (Q := fun w => length w = 4%nat /\ Forall is_white w).
  2:{ destruct (uw && negb (wt =? 1)); [|cbn [wp]; split; [reflexivity|apply repeat_P; left; reflexivity]].
      apply wp_bindi, wp_opt. intros kw. destruct (kw =? 0).
      - apply wp_bindi. eapply wp_mono; [|exact wp_whitening]. intros w WW. cbv beta. apply wp_bindi, wp_rd; [lia|]. intros d _.
        destruct (d =? 1).
        + apply wp_bindi. eapply wp_mono; [|apply (wp_rd_n (nt - 1) whitening is_white wp_whitening)]. intros l [L F]. cbn [wp].
          rewrite over_four by (cbn [length]; lia). apply four_white; [cbn [length]; lia|constructor; assumption].
        + cbn [wp]. rewrite over_four by (rewrite repeat_length; lia). apply four_white; [rewrite repeat_length; lia|apply repeat_P; exact WW].
      - cbn [wp]. rewrite over_four by (rewrite firstn_length; lia). apply four_white; [rewrite firstn_length; lia|].
        apply firstn_all_P. unfold cells. apply Forall_app. split; [apply firstn_all_P; exact O4|apply repeat_P; left; reflexivity]. }
  intros w [WL WF]. cbv beta. apply wp_bindi.
  eapply wp_mono with (Q := fun _ => True); [|destruct (_ && _); [apply wp_rd; [lia|auto]|exact I]].
  intros tnf _. cbn [wp i_tile i_ptile i_white i_pwhite i_env i_win i_lev]. repeat split; auto.
Qed.
Lemma data_safe wt nt uw ut indep i s : (nt <= 4)%nat -> orderly i -> wf s ->
  match exec (igf_data wt nt uw ut indep i) s with
  | Done (i', s') => (orderly i' /\ i_tile i' = i_ptile i' /\ i_white i' = i_pwhite i' /\
      i_env i' = i_env i /\ i_win i' = i_win i /\ i_lev i' = i_lev i /\ skipn nt (i_tile i') = repeat 3 (4 - nt)) /\
      wf s' /\ exists pre, rest_bits s = pre ++ rest_bits s'
  | Jmp _ => True
  | UB _ => False
  end.
Proof. intros N O W. exact (wp_exec _ _ s (data_wp wt nt uw ut indep i N O) W). Qed.
