(** * Lem_CoreProps: channel pair headers read from a buffer, and where reading them goes wrong *)

From Coq Require Import ZArith List Lia Bool.
From Verif Require Import Bits BitBuf Prog Wp Loops Config CoreIcs CoreSte CorePair Spec_CoreIcs Lem_Asi Spec_Asi Lem_AsiRT Lem_MhasProps Lem_MctBand
  Lem_CoreIcs Lem_CoreTns Spec_CoreSte Lem_CoreSte Spec_CorePair Lem_CorePair Lem_CoreSafe Frame.
Import ListNotations.
Open Scope list_scope.
Open Scope Z_scope.

(** ** TNS *)
Lemma tns_exec nl ns islong l t : valid_tns islong l -> Forall (above (if islong then nl else ns)) l -> 0 < nl -> 0 < ns -> dim_tns t ->
  forall d rest, wf d -> rest_bits d = enc_tns islong l ++ rest ->
  exists t' d', exec (read_tns nl ns (Some islong) t) d = Done ((0, t'), d') /\ rest_bits d' = rest /\
    holds_tns (if islong then nl else ns) l t' /\ dim_tns t'.
Proof.
  intros V A B1 B2 D d rest W R. destruct (tns_run nl ns islong l t rest V A B1 B2 D) as (t' & X & H & D').
  rewrite <- R in X. destruct (exec_of_run _ _ _ _ W X) as (d' & E & _ & R'). eauto 10.
Qed.

(** A first filter that reaches the lowest band, whatever else is sent. *)
Lemma tns_reach nl ns t f fine more : 0 < nl < 64 -> dim_tns t -> valid_twin (wid true) (mkSw fine (f :: more)) -> nl <= sf_len f ->
  forall d rest, wf d -> rest_bits d = enc_tns true [mkSw fine (f :: more)] ++ rest ->
  exists t' d', exec (read_tns nl ns (Some true) t) d = Done ((E_STARTBAND, t'), d').
Proof.
  intros N [D1 D2] [V1 V2] L d rest W R. cbn [sw_filt wid nb_filt] in V1. set (n := Z.of_nat (List.length (f :: more))) in *.
  assert (N0 : 0 < n < 4) by (change (2 ^ Z.of_nat 2) with 4 in V1; unfold n in *; cbn [List.length] in *; lia).
  assert (VF : valid_filt (wid true) fine f) by (inversion V2; auto). destruct VF as (F1 & _). cbn [wid nb_len] in F1. change (2 ^ Z.of_nat 6) with 64 in F1.
  destruct (t_win t) as [|w ws] eqn:ET; [cbn in D1; lia|].
  assert (DW : dim_twin w) by (inversion D2; auto). destruct DW as [DF _]. destruct (t_filt w) as [|g gs] eqn:EF; [cbn in DF; lia|].
  assert (X : exists t' r, runA (read_tns nl ns (Some true) t) (rest_bits d) = Done ((E_STARTBAND, t'), r)).
  { rewrite R. unfold enc_tns, enc_twin. cbn [flat_map sw_filt sw_fine wid nb_filt]. fold n. unfold enc_filt at 1. cbn [wid nb_len nb_order].
    rewrite app_nil_r, <- !app_assoc. set (more' := bits_of 4 _ ++ _).
    unfold read_tns. cbv iota zeta. rewrite ET. change (Z.to_nat 1) with 1%nat. cbn [forE]. rewrite !bind_assoc.
    rewrite (aget_run (w :: ws) 0 w) by reflexivity. rewrite !bind_assoc. unfold tns_window. rewrite !bind_assoc.
    rewrite (runA_rdb 2 2) by (try reflexivity; lia). replace (n =? 0) with false by (symmetry; apply Z.eqb_neq; lia).
    rewrite !bind_assoc. rewrite one_flag, runA_flag. rewrite EF. replace (Z.to_nat n) with (S (Z.to_nat n - 1)) by lia. cbn [forE]. rewrite !bind_assoc.
    rewrite (aget_run (g :: gs) 0 g) by reflexivity. unfold tns_filter at 1. rewrite !bind_assoc.
    rewrite (runA_rdb 6 6) by (try reflexivity; lia). cbv zeta. replace (nl - sf_len f <=? 0) with true by (symmetry; apply Z.leb_le; lia).
    cbn [bind]. rewrite !bind_assoc. rewrite aset_run by (cbn; lia). cbn [bind]. change (E_STARTBAND =? 0) with false. cbv iota. cbn [bind].
    rewrite ?bind_assoc. rewrite aset_run by (cbn; lia). cbn [bind]. change (E_STARTBAND =? 0) with false. cbv iota. cbn [bind runA]. eauto. }
  destruct X as (t' & r & X). destruct (exec_of_run _ _ _ _ W X) as (d' & E & _). eauto.
Qed.

(** ** Windows *)
Lemma win_exec nl offs prev v w si : valid_win nl (Z.of_nat (len offs)) v -> bands_ok offs nl -> len (w_gd w) = 8%nat -> si_dim si ->
  forall d rest, wf d -> rest_bits d = enc_win v ++ rest ->
  exists w' si' d', exec (ics_info nl (widths 0 offs) prev w si) d = Done ((0, (w', si')), d') /\ rest_bits d' = rest /\
    holds_win prev v w' /\ si_dim si' /\ (if v_code v =? 2 then holds_groups offs (groups v) si' else si' = si).
Proof.
  intros V (B1 & B2 & B3) G D d rest W R.
  destruct (ics_run nl offs prev v w si rest V G D ltac:(lia) ltac:(lia) B3) as (w' & si' & X & H1 & H2 & H3).
  rewrite <- R in X. destruct (exec_of_run _ _ _ _ W X) as (d' & E & _ & R'). eauto 12.
Qed.

Lemma slopes prev c : 0 <= c < 4 -> (c = 1 -> short_begin (meant prev c) = short_end prev) /\ short_end (meant prev c) = short_end c.
Proof.
  intros H. unfold meant. assert (c = 0 \/ c = 1 \/ c = 2 \/ c = 3) as [-> | [-> | [-> | ->]]] by lia; cbn [Z.eqb andb Pos.eqb]; try (split; [discriminate|reflexivity]).
  destruct (short_end prev); split; intros; reflexivity.
Qed.

(** Two channels, each with eight short windows in groups of its own. *)
Lemma shared_groups nl offs p1 p2 v1 v2 w1 w2 si d1 d2 r1 r2 : bands_ok offs nl ->
  valid_win nl (Z.of_nat (len offs)) v1 -> valid_win nl (Z.of_nat (len offs)) v2 -> v_code v1 = 2 -> v_code v2 = 2 -> groups v1 <> groups v2 ->
  len (w_gd w1) = 8%nat -> len (w_gd w2) = 8%nat -> si_dim si -> wf d1 -> wf d2 ->
  rest_bits d1 = enc_win v1 ++ r1 -> rest_bits d2 = enc_win v2 ++ r2 ->
  exists w1' si1 d1' w2' si2 d2', exec (ics_info nl (widths 0 offs) p1 w1 si) d1 = Done ((0, (w1', si1)), d1') /\
    exec (ics_info nl (widths 0 offs) p2 w2 si1) d2 = Done ((0, (w2', si2)), d2') /\
    holds_groups offs (groups v1) si1 /\ ~ holds_groups offs (groups v1) si2.
Proof.
  intros B V1 V2 C1 C2 N G1 G2 D W1 W2 R1 R2.
  destruct (win_exec nl offs p1 v1 w1 si V1 B G1 D d1 r1 W1 R1) as (w1' & si1 & d1' & X1 & _ & _ & D1 & H1). rewrite C1 in H1. change (2 =? 2) with true in H1. cbv iota in H1.
  destruct (win_exec nl offs p2 v2 w2 si1 V2 B G2 D1 d2 r2 W2 R2) as (w2' & si2 & d2' & X2 & _ & _ & D2 & H2). rewrite C2 in H2. change (2 =? 2) with true in H2. cbv iota in H2.
  exists w1', si1, d1', w2', si2, d2'. split; [exact X1|]. split; [exact X2|]. split; [exact H1|].
  intros (K1 & K2 & _). destruct H2 as (J1 & J2 & _). apply N. rewrite <- K2, <- J2. f_equal. lia.
Qed.

(** ** The pair *)
Lemma pair_exec (indep : bool) base3b enf0 offs nl prev (first : bool) info0 ref h s : bands_ok offs nl -> pst_dim s ->
  valid_pair nl (Z.of_nat (len offs)) indep (start indep ref) h -> holds_prev ref (c_rp (p_ste s)) (c_ip (p_ste s)) ->
  (base3b = 1 -> y_ltpf h = None) -> (enf0 = 1 -> uses_complex h = false) ->
  (match y_tns h, y_shared h with CommonTns _ _, Some z => first = true \/ info0 = Some (long_win (z_win z)) | _, _ => True end) ->
  forall d rest, wf d -> rest_bits d = enc_pair indep (start indep ref) h ++ rest ->
  exists s' d', exec (pair_head (b2z indep) base3b enf0 nl (widths 0 offs) prev first info0 s) d = Done ((0, s'), d') /\ rest_bits d' = rest /\
    holds_pair offs nl prev h s' /\ holds_prev (next_coefs indep ref h) (c_rp (p_ste s')) (c_ip (p_ste s')) /\ pst_dim s'.
Proof.
  intros B D V P BL EN TN d rest W R. destruct (pair_run indep base3b enf0 offs nl prev first info0 ref h s rest B D V P BL EN TN) as (s' & X & H).
  rewrite <- R in X. destruct (exec_of_run _ _ _ _ W X) as (d' & E & _ & R'). eauto 10.
Qed.

(** Frames read one after the other, each from its own buffer, the state kept: the window
    sequences before, which frames are decodable on their own, the buffers. *)
Fixpoint read_heads (base3b enf0 nl : Z) (ws : list Z) (first : bool) (info0 : option bool) (l : list (Z * Z * rbuf)) (s : pst) : outcome (list (Z * pst)) :=
  match l with
  | [] => Done []
  | (indep, prev, d) :: r =>
    match exec (pair_head indep base3b enf0 nl ws prev first info0 s) d with
    | Done ((e, s'), _) =>
      match read_heads base3b enf0 nl ws first info0 r s' with
      | Done l => Done ((e, s') :: l)
      | Jmp c => Jmp c
      | UB u => UB u
      end
    | Jmp c => Jmp c
    | UB u => UB u
    end
  end.

(** [d] starts with the bits sent for the frame. *)
Definition carries (f : frame) (bits : list bool) (x : Z * Z * rbuf) : Prop :=
  fst (fst x) = b2z (k_indep f) /\ snd (fst x) = k_prev f /\ wf (snd x) /\ exists rest, rest_bits (snd x) = bits ++ rest.
Fixpoint carried (fs : list frame) (bits : list (list bool)) (l : list (Z * Z * rbuf)) : Prop :=
  match fs, bits, l with
  | [], [], [] => True
  | f :: fs, b :: bs, x :: l => carries f b x /\ carried fs bs l
  | _, _, _ => False
  end.

(** The left channel of the pair is channel 0. *)
Lemma heads_run base3b enf0 offs nl info0 : forall fs ref l s, bands_ok offs nl -> pst_dim s -> holds_prev ref (c_rp (p_ste s)) (c_ip (p_ste s)) ->
  valid_frames nl (Z.of_nat (len offs)) ref fs -> carried fs (enc_frames ref fs) l ->
  (base3b = 1 -> Forall (fun f => y_ltpf (k_head f) = None) fs) -> (enf0 = 1 -> Forall (fun f => uses_complex (k_head f) = false) fs) ->
  exists ss, read_heads base3b enf0 nl (widths 0 offs) true info0 l s = Done ss /\
    Forall2 (fun f x => fst x = 0 /\ holds_pair offs nl (k_prev f) (k_head f) (snd x)) fs ss.
Proof.
  induction fs as [|f fs IH]; intros ref l s B D P V C BL EN; cbn [enc_frames] in C.
  - destruct l; [|contradiction]. exists []. split; [reflexivity|constructor].
  - destruct l as [|[[ind prev] d] l]; [contradiction|]. destruct C as [(C1 & C2 & C3 & rest & C4) C]. cbn [fst snd] in *. subst ind prev.
    destruct V as [V1 V].
    destruct (pair_exec (k_indep f) base3b enf0 offs nl (k_prev f) true info0 ref (k_head f) s B D V1 P) with (d := d) (rest := rest) as (s' & d' & X & _ & H & P' & D'); auto.
    { intros E. specialize (BL E). inversion BL. auto. } { intros E. specialize (EN E). inversion EN. auto. }
    { destruct (y_tns (k_head f)); auto. destruct (y_shared (k_head f)); auto. }
    destruct (IH (next_coefs (k_indep f) ref (k_head f)) l s' B D' P' V C) as (ss & Y & F).
    { intros E. specialize (BL E). inversion BL. auto. } { intros E. specialize (EN E). inversion EN. auto. }
    exists ((0, s') :: ss). split; [|constructor; auto]. cbn [read_heads]. rewrite X, Y. reflexivity.
Qed.

(** ** Safety *)
Lemma pair_safe indep base3b enf0 nl ws prev first info0 C s d : 0 < nl < 64 -> (0 < len ws <= 15)%nat -> 0 <= C -> C + 30000 < 2 ^ 31 -> pst_ok C s -> wf d ->
  match exec (pair_head indep base3b enf0 nl ws prev first info0 s) d with
  | Done ((_, s'), _) => pst_ok (C + 24000) s'
  | Jmp _ => True
  | UB _ => False
  end.
Proof.
  intros NL NS C0 C1 P W. pose proof (wp_exec _ _ d (wp_pair indep base3b enf0 nl ws prev first info0 C s NL NS C0 C1 P) W) as X.
  destruct (exec _ d) as [[[e s'] d']| |]; auto. apply X.
Qed.

Lemma heads_safe base3b enf0 nl ws first info0 : 0 < nl < 64 -> (0 < len ws <= 15)%nat -> forall l C s, 0 <= C -> C + 24000 * Z.of_nat (len l) + 6000 < 2 ^ 31 -> pst_ok C s ->
  Forall (fun x => wf (snd x)) l -> forall u, read_heads base3b enf0 nl ws first info0 l s <> UB u.
Proof.
  intros NL NS. induction l as [|[[ind prev] d] l IH]; intros C s C0 C1 P F u; [discriminate|]. apply Forall_cons_iff in F. destruct F as [F1 F]. cbn [snd] in F1.
  cbn [len] in C1. cbn [read_heads]. pose proof (pair_safe ind base3b enf0 nl ws prev first info0 C s d NL NS C0 ltac:(lia) P F1) as X.
  destruct (exec _ d) as [[[e s'] d']| |]; [|discriminate|contradiction].
  specialize (IH (C + 24000) s' ltac:(lia) ltac:(lia) X F). destruct (read_heads _ _ _ _ _ _ _ s'); try discriminate. exfalso. eapply IH. reflexivity.
Qed.

Lemma win_safe nl ws prev w si d : (len ws <= 15)%nat -> len (w_gd w) = 8%nat -> si_dim si -> wf d ->
  match exec (ics_info nl ws prev w si) d with
  | Done ((_, (w', si')), _) => len (w_gd w') = 8%nat /\ si_dim si'
  | Jmp _ => True
  | UB _ => False
  end.
Proof.
  intros L G D W. pose proof (wp_exec _ _ d (wp_ics nl ws prev w si L G D) W) as X.
  destruct (exec _ d) as [[[e [w' si']] d']| |]; auto. destruct X as ((X1 & X2 & _) & _). auto.
Qed.
Lemma tns_safe nl ns info t d : dim_tns t -> wf d ->
  match exec (read_tns nl ns info t) d with
  | Done ((_, t'), _) => dim_tns t'
  | Jmp _ => True
  | UB _ => False
  end.
Proof.
  intros D W. pose proof (wp_exec _ _ d (wp_tns nl ns info t D) W) as X. destruct (exec _ d) as [[[e t'] d']| |]; auto. apply X.
Qed.

(** ** Cases *)
(** 48 kHz: 49 bands of long windows, 14 of short ones. *)
Definition offs48 : list Z := [4; 8; 12; 16; 20; 28; 36; 44; 56; 68; 80; 96; 112; 128].
Definition ste0 : ste := mkSte (repeat (repeat 0 136) 8) (repeat (repeat 0 136) 8) (repeat (repeat 0 136) 8) (repeat 0 136) (repeat 0 136) 0 0 0.
Definition tns0 : tns := mkTns 0 (repeat (mkTw 0 0 (repeat (mkTf 0 0 0 0 (repeat 0 15)) 3)) 8).
Definition win0 : wst := mkW 0 0 0 (repeat 0 8).
Definition si0 : sinfo := mkSi 0 (repeat 0 8) (repeat 0 125).
Definition pst0 : pst := mkPst win0 win0 si0 ste0 (repeat 0 128) tns0 tns0 (mkLt 0 0 0) (mkLt 0 0 0) 0 0 0 0 0 0 0 0 0 0 0.

Lemma bands48 : bands_ok offs48 49.
Proof. split; [cbn; lia|]. split; [lia|]. unfold offs48. repeat constructor; lia. Qed.
Lemma dim_tns0 : dim_tns tns0.
Proof. split; [reflexivity|]. unfold tns0. cbn [t_win]. repeat constructor. Qed.
Lemma dim0 : pst_dim pst0.
Proof. unfold pst_dim. sp; try reflexivity; try exact dim_tns0; [split; reflexivity|]. unfold ste_dim. sp; (split; [reflexivity|]); repeat constructor. Qed.
Lemma ok0 : pst_ok 0 pst0.
Proof.
  assert (R : row_ok 0 (repeat 0 136)) by (split; [reflexivity|repeat constructor; lia]).
  assert (RS : rows_ok 0 (repeat (repeat 0 136) 8)) by (split; [reflexivity|repeat (constructor; [exact R|]); constructor]).
  unfold pst_ok. sp; try reflexivity; try exact dim_tns0; [split; reflexivity|]. unfold ste_ok. sp; auto. split; [reflexivity|]. repeat constructor.
Qed.
Lemma prev0 : holds_prev [] (c_rp (p_ste pst0)) (c_ip (p_ste pst0)).
Proof. exact prev_zero. Qed.

(** Two frames: a long window with complex prediction in four bands and one common filter,
    then a dependent frame with differences over time and the postfilter shared. *)
Definition case_tns : list swin := [mkSw true [mkSf 20 1 false [3; -8; 7]; mkSf 10 0 true [-4]]].
Definition case_f1 : pair := mkPair
  (Some (mkShared (mkWinfo 0 1 7 []) (Some 6) (Predicted (mkPred true true true false false [[Some (4, -3); None; Some (60, 1); Some (5, 5)]]))))
  None (CommonTns false case_tns).
Definition case_f2 : pair := mkPair
  (Some (mkShared (mkWinfo 0 0 8 []) None (Predicted (mkPred false false false false true [[Some (3, 0); Some (1, 0); Some (62, 0); Some (-9, 0)]]))))
  (Some (Some (300, 2))) (OwnTns true RightOnly).
Definition case_frames : list frame := [mkFrame true 0 case_f1; mkFrame false 0 case_f2].
Lemma case_valid : valid_frames 49 14 [] case_frames.
Proof.
  unfold case_frames. cbn [valid_frames k_indep k_head]. split; [|split; [|exact I]].
  - cbn. unfold valid_shared, valid_win, valid_pred, valid_tns, valid_twin, valid_filt, above. cbn. repeat split; try lia; repeat constructor; cbn; try lia; try discriminate.
  - cbn. unfold valid_shared, valid_win, valid_pred. cbn. repeat split; try lia; repeat constructor; cbn; try lia; try discriminate.
Qed.

(** Reading without asking how much is left does not depend on what follows. *)
Fixpoint runS {A} (p : prog A) (l : list bool) : option (A * list bool) :=
  match p with
  | Ret a => Some (a, l)
  | Rd n k => if (n <? 0) || (24 <? n) || (Z.of_nat (List.length l) <? n) then None
              else runS (k (val_of (firstn (Z.to_nat n) l))) (skipn (Z.to_nat n) l)
  | _ => None
  end.
Lemma runS_run {A} (p : prog A) : forall l a r x, runS p l = Some (a, r) -> runA p (l ++ x) = Done (a, r ++ x).
Proof.
  induction p as [a0|n k IH|n k IH|n k IH|k IH|c|u]; intros l a r x E; cbn [runS] in E; try discriminate.
  - injection E as -> ->. reflexivity.
  - cbn [runA]. destruct ((n <? 0) || (24 <? n)) eqn:E1; [discriminate|]. cbn [orb] in E. destruct (Z.ltb_spec (Z.of_nat (List.length l)) n); [discriminate|].
    apply orb_false_iff in E1. destruct E1 as [E1 _]. apply Z.ltb_ge in E1.
    replace (Z.of_nat (List.length (l ++ x)) <? n) with false by (symmetry; apply Z.ltb_ge; rewrite app_length; lia).
    rewrite firstn_app, skipn_app. replace (Z.to_nat n - List.length l)%nat with 0%nat by lia. cbn [firstn skipn]. rewrite app_nil_r. apply IH. exact E.
Qed.
Definition outcome_of (x : option ((Z * pst) * list bool)) : option (Z * Z * list bool) :=
  match x with Some ((e, s), r) => Some (e, h_mste s, r) | _ => None end.
Lemma outcome_exec p d l x e m r : wf d -> rest_bits d = l ++ x -> outcome_of (runS p l) = Some (e, m, r) ->
  exists s' d', exec p d = Done ((e, s'), d') /\ h_mste s' = m /\ rest_bits d' = r ++ x.
Proof.
  intros W R E. unfold outcome_of in E. destruct (runS p l) as [[[e' s'] r']|] eqn:X; try discriminate. injection E as -> <- ->.
  apply (runS_run _ _ _ _ x) in X. rewrite <- R in X.
  destruct (exec_of_run _ _ _ _ W X) as (d' & Y & _ & R'). eauto.
Qed.

(** A pair with eight short windows and one TNS set, no window of which has a filter. *)
Definition case_short : pair := mkPair
  (Some (mkShared (mkWinfo 2 0 3 [true; true; false; true; false; true; true]) None MidSide)) None
  (CommonTns true (repeat (mkSw false []) 8)).
Lemma case_short_valid indep : valid_pair 49 14 indep [] case_short.
Proof.
  cbn. unfold valid_shared, valid_win, valid_tns, valid_twin, above. cbn. repeat split; try lia; repeat constructor; cbn; try lia; try discriminate.
Qed.
Lemma short_left d rest : wf d -> rest_bits d = enc_pair true [] case_short ++ rest ->
  exists s' d', exec (pair_head 1 0 0 49 (widths 0 offs48) 0 false (Some true) pst0) d = Done ((0, s'), d') /\ rest_bits d' = repeat false 6 ++ rest.
Proof.
  intros W R. match goal with |- context [exec ?p d] => set (q := p) end.
  destruct (outcome_exec q d (enc_pair true [] case_short) rest 0 3 (repeat false 6) W R ltac:(vm_compute; reflexivity)) as (s' & d' & X & Y & Z). eauto.
Qed.
Lemma short_none d rest : wf d -> rest_bits d = enc_pair true [] case_short ++ rest ->
  exists s' d', exec (pair_head 1 0 0 49 (widths 0 offs48) 0 false None pst0) d = Done ((E_NOSFB, s'), d').
Proof.
  intros W R. match goal with |- context [exec ?p d] => set (q := p) end.
  destruct (outcome_exec q d (enc_pair true [] case_short) rest E_NOSFB 3 (repeat false 8) W R ltac:(vm_compute; reflexivity)) as (s' & d' & X & Y & Z). eauto.
Qed.

(** Complex prediction in a pair. *)
Definition case_cplx : pair := mkPair
  (Some (mkShared (mkWinfo 0 0 2 []) None (Predicted (mkPred false false true false false [[Some (1, 1)]])))) None NoTns.
Lemma case_cplx_valid : valid_pair 49 14 true [] case_cplx.
Proof. cbn. unfold valid_shared, valid_win, valid_pred. cbn. repeat split; try lia; repeat constructor; cbn; try lia; try discriminate. Qed.
Lemma cplx_refused d rest : wf d -> rest_bits d = enc_pair true [] case_cplx ++ rest ->
  exists s' d', exec (pair_head 1 0 1 49 (widths 0 offs48) 0 true None pst0) d = Done ((E_COMPPRED, s'), d').
Proof.
  intros W R. match goal with |- context [exec ?p d] => set (q := p) end.
  destruct (outcome_exec q d (enc_pair true [] case_cplx) rest E_COMPPRED 2 [false] W R ltac:(vm_compute; reflexivity)) as (s' & d' & X & Y & Z). eauto.
Qed.

(** More bands for the right channel than a window has. *)
Definition case_wide : pair := mkPair (Some (mkShared (mkWinfo 0 0 2 []) (Some 60) LeftRight)) None NoTns.
Lemma wide_accepted d rest : wf d -> rest_bits d = enc_pair true [] case_wide ++ rest ->
  exists s' d', exec (pair_head 1 0 0 49 (widths 0 offs48) 0 true None pst0) d = Done ((0, s'), d') /\ h_mste s' = 60 /\ rest_bits d' = rest.
Proof.
  intros W R. match goal with |- context [exec ?p d] => set (q := p) end.
  destruct (outcome_exec q d (enc_pair true [] case_wide) rest 0 60 [] W R ltac:(vm_compute; reflexivity)) as (s' & d' & X & Y & Z). eauto.
Qed.
