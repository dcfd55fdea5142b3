(** * Lem_ExtRenTot: every payload stays inside the buffer it is given *)

From Coq Require Import ZArith List Lia Bool ZifyBool.
From Verif Require Import Bits BitBuf BitWrite Prog Wp F32 Pcm Config Hoa Oam
  Spec_Config Spec_ConfigFull ExtRen Spec_ExtRen Lem_ExtRen Lem_ExtRenCh Lem_ExtRenOb.
Import ListNotations.
Open Scope Z_scope.

(** A value, when there is one, satisfies [P]. *)
Definition when_done {A} (P : A -> Prop) (o : outcome A) : Prop :=
  match o with Done a => P a | _ => True end.
Definition ok (o : outcome (list wop)) : Prop := when_done (Forall op_ok) o.

Lemma wd_bind {A B} (c : outcome A) (k : A -> outcome B) P :
  (forall a, c = Done a -> when_done P (k a)) -> when_done P (dof a <- c ; k a).
Proof. destruct c; cbn; auto. Qed.
Lemma each_ok body : (forall i, ok (body i)) -> forall n i, ok (each n i body).
Proof.
  intros H. induction n as [|n IH]; intros i; [cbn; constructor|]. cbn [each].
  specialize (H i). destruct (body i); try exact I. specialize (IH (i + 1)).
  destruct (each n (i + 1) body); try exact I. apply Forall_app. split; [exact H|exact IH].
Qed.
Ltac oks :=
  repeat match goal with
  | |- Forall op_ok (_ ++ _) => apply Forall_app; split
  | |- Forall op_ok (_ :: _) => apply Forall_cons; [cbn [op_ok]; try lia|]
  | |- Forall op_ok [] => apply Forall_nil
  | |- Forall op_ok (if ?b then _ else _) => destruct b
  | |- _ => assumption
  end.
Ltac dod := match goal with
  | |- ok (match ?c with Done _ => _ | Jmp _ => _ | UB _ => _ end) => destruct c eqn:?; try exact I
  end.

Ltac eachok :=
  match goal with |- context [each ?n ?i ?f] =>
    let H := fresh "H" in
    assert (H : ok (each n i f));
      [apply each_ok; intros ?; cbn beta
      |destruct (each n i f); try exact I; cbn [ok when_done fst] in *] end.

Lemma spk_desc_ok f prec : Forall op_ok (x_spk_desc f prec).
Proof. unfold x_spk_desc. oks; destruct (prec =? 0); lia. Qed.
Lemma flexispk_ok l also : ok (x_flexispk l also).
Proof.
  unfold x_flexispk.
  eachok.
  - dod. cbn [ok when_done]. oks; apply spk_desc_ok.
  - oks.
Qed.
Lemma spk3d_ok l also : when_done (fun p => Forall op_ok (fst p)) (x_spk3d l also).
Proof.
  unfold x_spk3d. destruct (l_type l =? 0); [cbn [when_done fst]; oks|].
  destruct (l_type l =? 1).
  { eachok; [dod; cbn [ok when_done]; oks|oks]. }
  destruct (l_type l =? 2); [|cbn [when_done fst]; oks].
  assert (E := flexispk_ok l also). destruct (x_flexispk l also); try exact I.
  cbn [ok when_done fst] in *. oks.
Qed.
Lemma tab_ok t n : 0 <= n <= 32 -> forall m i, ok (each m i (fun i => dof v <- el t i ; Done [WB v n])).
Proof. intros Hn. apply each_ok. intros i. destruct (el t i); try exact I. cbn [ok when_done]. oks. Qed.
Lemma gca_prod_ok pm n : ok (x_gca_prod pm n).
Proof.
  unfold x_gca_prod. assert (E := tab_ok (pm_head pm) 1 ltac:(lia) (Z.to_nat n) 0).
  destruct (each _ _ _); try exact I. cbn [ok when_done] in *. oks.
Qed.
Lemma mtx_bits_ok len b : ok (x_mtx_bits len b).
Proof.
  unfold x_mtx_bits. assert (E := tab_ok b 8 ltac:(lia) (Z.to_nat (len / 8)) 0).
  destruct (each _ _ _); try exact I. cbn [ok when_done] in *.
  destruct (len mod 8 =? 0); [exact E|]. destruct (el b (len / 8)); try exact I. cbn [ok when_done]. oks.
  assert (M := Z.mod_pos_bound len 8 ltac:(lia)). lia.
Qed.
Lemma x_mtx_ok m j : ok (x_mtx m j).
Proof.
  unfold x_mtx. dod. dod. assert (E := tab_ok a0 5 ltac:(lia) (Z.to_nat a) 0).
  destruct (each _ _ _); try exact I. cbn [ok when_done] in E.
  dod. dod. assert (F := mtx_bits_ok a2 a3). destruct (x_mtx_bits a2 a3); try exact I.
  cbn [ok when_done] in *. oks.
Qed.
Lemma dent_ok cicp m : ok (x_dent cicp m).
Proof.
  unfold x_dent. destruct (dm_lay m =? cicp); [|cbn; constructor].
  destruct (dm_type m =? 1).
  { assert (E := each_ok (x_mtx m) (x_mtx_ok m) (Z.to_nat (dm_cnt m)) 0).
    destruct (each _ _ _); try exact I. cbn [ok when_done] in *. oks. }
  destruct (dm_type m =? 0); cbn [ok when_done]; oks.
Qed.
Lemma dmx_ok d cicp : ok (x_dmx d cicp).
Proof.
  unfold x_dmx.
  set (c := if (dx_type d =? 1) || (dx_type d =? 2) then _ else _).
  assert (E : ok c).
  { unfold c. destruct ((dx_type d =? 1) || (dx_type d =? 2)); [|constructor]. apply each_ok.
    intros i. destruct (el (dx_mat d) i); try exact I. apply dent_ok. }
  destruct c; try exact I. cbn [ok when_done] in *. oks.
Qed.
Lemma ch_group_ok c grp idx : when_done (fun p => Forall op_ok (fst (fst p))) (x_ch_group c grp idx).
Proof.
  unfold x_ch_group. do 3 (apply wd_bind; intros).
  assert (E1 := spk3d_ok a0 a1). destruct (x_spk3d a0 a1) as [[spk l']| |]; try exact I.
  cbn [when_done fst] in E1. do 2 (apply wd_bind; intros).
  assert (E2 : ok (each (Z.to_nat a3) 0 (fun ch =>
    dof row <- el (repeat (repeat 0 32) 32) grp ; dof v <- el row ch ; Done [WB v 9]))).
  { apply each_ok. intros i. destruct (el (repeat (repeat 0 32) 32) grp) as [row| |]; try exact I.
    destruct (el row i); try exact I. cbn [ok when_done]. oks. }
  destruct (each _ _ _); try exact I. cbn [ok when_done] in E2.
  do 2 (apply wd_bind; intros).
  assert (E3 : ok (if c_dmxp c =? 0 then Done [] else x_dmx (c_dmx c) (c_cicp c))).
  { destruct (c_dmxp c =? 0); [constructor|apply dmx_ok]. }
  destruct (if c_dmxp c =? 0 then Done [] else x_dmx (c_dmx c) (c_cicp c)); try exact I.
  cbn [ok when_done] in E3.
  set (x := if pm_present (c_prod c) =? 1 then _ else _).
  assert (E4 : ok x).
  { unfold x. destruct (pm_present (c_prod c) =? 1); [|cbn [ok when_done]; oks].
    assert (F := gca_prod_ok (c_prod c) (q_gch (c_sig c))). destruct (x_gca_prod _ _); try exact I.
    cbn [ok when_done] in *. oks. }
  destruct x; try exact I. cbn [ok when_done fst] in *. oks.
Qed.
Lemma ch_groups_ok : forall n grp idx c, when_done (fun p => Forall op_ok (fst p)) (x_ch_groups n grp idx c).
Proof.
  induction n as [|n IH]; intros grp idx c; [constructor|]. cbn [x_ch_groups].
  assert (E := ch_group_ok c grp idx). destruct (x_ch_group c grp idx) as [[[a c'] idx']| |]; try exact I.
  specialize (IH (grp + 1) idx' c'). destruct (x_ch_groups n (grp + 1) idx' c') as [[b c'']| |]; try exact I.
  cbn [when_done fst] in *. apply Forall_app. auto.
Qed.
Lemma ch_meta_ok c ops c' : x_ch_meta c = Done (ops, c') -> Forall op_ok ops.
Proof.
  unfold x_ch_meta. assert (E := ch_groups_ok (Z.to_nat (q_gch (c_sig c))) 0 0 c).
  destruct (x_ch_groups _ _ _ _) as [[o k]| |]; try discriminate. intros H. injection H as <- <-.
  cbn [when_done fst] in E. oks; cbn; lia.
Qed.

Lemma sector_ok s : ok (x_sector s).
Proof. unfold x_sector. destruct (sc_pre s =? 0); [repeat dod|]; cbn [ok when_done]; oks. Qed.
Lemma oam_frame_ok b n obj fr : ok (x_oam_frame b n obj fr).
Proof.
  unfold x_oam_frame. dod. destruct (a =? 1); [|cbn [ok when_done]; oks]. repeat dod. cbn [ok when_done]. oks.
Qed.
Lemma object_ok b nfr grp off obj : ok (x_object b nfr grp off obj).
Proof.
  unfold x_object. dod.
  assert (E := each_ok (x_oam_frame b (o_n (b_st b)) obj) (oam_frame_ok b _ obj) (Z.to_nat nfr) 0).
  destruct (each _ _ _); try exact I. cbn [ok when_done] in E. do 8 dod.
  assert (F : ok (each (Z.to_nat (ex_num a8)) 0 (fun i => dof s <- el (ex_sec a8) i ; x_sector s))).
  { apply each_ok. intros i. destruct (el (ex_sec a8) i); try exact I. apply sector_ok. }
  destruct (each _ _ _); try exact I. cbn [ok when_done] in *. oks.
Qed.
Lemma oam_meta_ok b ops : x_oam_meta b = Done ops -> Forall op_ok ops.
Proof.
  unfold x_oam_meta. destruct (oc_fl (b_cfg b) =? 0); [discriminate|].
  destruct (first_obj _ _ _ _) as [[grp off]| |]; try discriminate.
  assert (E := each_ok _ (object_ok b (Z.quot (oc_ccfl (b_cfg b)) (oc_fl (b_cfg b))) grp off) (Z.to_nat (o_n (b_st b))) 0).
  destruct (each _ _ _); try discriminate. intros H. injection H as <-. cbn [ok when_done] in E. oks.
Qed.

Lemma screen_ext_ok x : ok (x_screen_ext x).
Proof.
  unfold x_screen_ext. match goal with |- context [each _ _ ?f] => set (body := f) end.
  assert (E : ok (each (Z.to_nat (sx_num x)) 0 body)).
  { apply each_ok. intros i. unfold body. dod. dod. destruct (a0 =? 0); [cbn [ok when_done]; oks|].
    repeat dod. cbn [ok when_done]. oks. }
  destruct (each _ _ _); try exact I. cbn [ok when_done] in *. oks.
Qed.
Lemma sqr_le n : forall f s, when_done (fun q => q <= s) (x_sqr f s n).
Proof.
  induction f as [|f IH]; intros s; cbn [x_sqr]; destruct (n <? s * s); try exact I; cbn [when_done]; try lia.
  specialize (IH (s - 1)). destruct (x_sqr f (s - 1) n); try exact I. cbn [when_done] in *. lia.
Qed.
Lemma clog2_small s : s <= 7 -> 0 <= clog2 s <= 3.
Proof.
  intros H. destruct (Z.ltb_spec 1 s) as [H1|H1].
  2:{ unfold clog2. cbn [clog_loop]. change (2 ^ 0) with 1. destruct (Z.ltb_spec 1 s); lia. }
  assert (C : s = 2 \/ s = 3 \/ s = 4 \/ s = 5 \/ s = 6 \/ s = 7) by lia.
  decompose [or] C; subst; cbn; lia.
Qed.
Lemma hoa_matrix_ok m n : ok (x_hoa_matrix m n).
Proof.
  unfold x_hoa_matrix. assert (Q := sqr_le n 8 7). destruct (x_sqr 8 7 n) as [s| |]; try exact I.
  cbn [when_done] in Q. assert (C := clog2_small s Q).
  set (gain := fun i : Z => _).
  assert (G : forall i, ok (gain i)).
  { intros i. unfold gain. dod. dod. cbn [ok when_done]. oks. }
  match goal with |- ok (match ?g with Done _ => _ | Jmp _ => _ | UB _ => _ end) =>
    assert (E : ok g); [|destruct g; try exact I] end.
  { destruct (m_glp m =? 1); [apply each_ok; exact G|exact (G 0)]. }
  cbn [ok when_done] in *. oks.
Qed.
Lemma hoa_group_ok a idx : when_done (fun p => Forall op_ok (fst p)) (x_hoa_group a idx).
Proof.
  unfold x_hoa_group. do 3 (apply wd_bind; intros).
  set (nf := if a_nfc a =? 0 then _ else _).
  assert (E1 : ok nf).
  { unfold nf. destruct (a_nfc a =? 0); [constructor|]. dod. cbn [ok when_done]. oks. }
  destruct nf; try exact I.
  set (mt := if a_matp a =? 0 then _ else _).
  assert (E2 : ok mt).
  { unfold mt. destruct (a_matp a =? 0); [constructor|].
    assert (F := hoa_matrix_ok (a_mat a) (a_ncoef a)). destruct (x_hoa_matrix _ _); try exact I.
    cbn [ok when_done] in *. oks. }
  destruct mt; try exact I.
  set (sc := if a_srel a =? 0 then _ else _).
  assert (E3 : ok sc).
  { unfold sc. destruct (a_srel a =? 0); [constructor|].
    assert (F := screen_ext_ok (a_scx a)). destruct (x_screen_ext _); try exact I.
    cbn [ok when_done] in *. unfold x_screen. oks. }
  destruct sc; try exact I. cbn [ok when_done fst] in *. oks.
Qed.
Lemma hoa_groups_ok a : forall n idx, ok (x_hoa_groups n idx a).
Proof.
  induction n as [|n IH]; intros idx; [constructor|]. cbn [x_hoa_groups].
  assert (E := hoa_group_ok a idx). destruct (x_hoa_group a idx) as [[x i]| |]; try exact I.
  specialize (IH i). destruct (x_hoa_groups n i a); try exact I. cbn [ok when_done fst] in *.
  apply Forall_app. auto.
Qed.
Lemma hoa_meta_ok a ops : x_hoa_meta a = Done ops -> Forall op_ok ops.
Proof.
  unfold x_hoa_meta. assert (E := hoa_groups_ok a (Z.to_nat (q_ghoa (a_sig a))) 0).
  destruct (x_hoa_groups _ _ _); try discriminate. intros H. injection H as <-. cbn [ok when_done] in E. oks.
Qed.

(** ** Every payload *)

Lemma ch_total c mem : (0 < length mem)%nat -> forall ops c', x_ch_meta c = Done (ops, c') ->
  exists d, ch_store c mem = Done (d, (size ops + 7) / 8, c') /\ length d = length mem.
Proof.
  intros L ops c' E. destruct (store_total ops mem (ch_meta_ok _ _ _ E) L) as (d & S1 & Ld).
  exists d. unfold ch_store. rewrite E, S1. auto.
Qed.
Lemma ob_total b mem : (0 < length mem)%nat -> forall ops, x_oam_meta b = Done ops ->
  exists d, ob_store b mem = Done (d, (size ops + 7) / 8) /\ length d = length mem.
Proof.
  intros L ops E. destruct (store_total ops mem (oam_meta_ok _ _ E) L) as (d & S1 & Ld).
  exists d. unfold ob_store. rewrite E, S1. auto.
Qed.
Lemma ho_total a mem : (0 < length mem)%nat -> forall ops, x_hoa_meta a = Done ops ->
  exists d, ho_store a mem = Done (d, (size ops + 7) / 8) /\ length d = length mem.
Proof.
  intros L ops E. destruct (store_total ops mem (hoa_meta_ok _ _ E) L) as (d & S1 & Ld).
  exists d. unfold ho_store. rewrite E, S1. auto.
Qed.

(** ** Objects that fit *)

Lemma size_app x y : size (x ++ y) = size x + size y.
Proof. induction x as [|o x IH]; [reflexivity|]. cbn [app size fold_right]. fold (size (x ++ y)) (size x). lia. Qed.
Lemma each_size body B : (forall i ops, body i = Done ops -> size ops <= B) -> forall n i ops,
  each n i body = Done ops -> size ops <= Z.of_nat n * B.
Proof.
  intros H. induction n as [|n IH]; intros i ops E; [injection E as <-; cbn; lia|]. cbn [each] in E.
  destruct (body i) eqn:E1; try discriminate. destruct (each n (i + 1) body) eqn:E2; try discriminate.
  injection E as <-. rewrite size_app. apply H in E1. apply IH in E2. lia.
Qed.
Lemma frame_size b n obj fr ops : x_oam_frame b n obj fr = Done ops -> size ops <= 45.
Proof.
  unfold x_oam_frame. intros H. destruct (el (o_has (b_st b)) (fr * n + obj)) as [a| |]; try discriminate.
  destruct (a =? 1); [|injection H as <-; cbn; lia].
  repeat match type of H with context [match ?c with Done _ => _ | Jmp _ => _ | UB _ => _ end] => destruct c; try discriminate end.
  injection H as <-. destruct (oc_dyn _ =? 0), (oc_uni _ =? 0); cbn; lia.
Qed.

Lemma sector_size s ops : x_sector s = Done ops -> sc_pre s = 1 -> size ops = 5.
Proof. unfold x_sector. intros H P. rewrite P in H. cbn [Z.eqb] in H. injection H as <-. reflexivity. Qed.
Lemma sectors_size l : forall n i ops, Forall (fun s => sc_pre s = 1) l ->
  each n i (fun i => dof s <- el l i ; x_sector s) = Done ops -> size ops <= Z.of_nat n * 5.
Proof.
  intros n i ops F. apply each_size. clear - F. intros i ops E. unfold el in E.
  destruct ((0 <=? i) && (i <? Z.of_nat (length l))); try discriminate.
  destruct (nth_error l (Z.to_nat i)) as [s|] eqn:N; try discriminate.
  apply nth_error_In in N. eapply Forall_forall in F; [|exact N]. rewrite (sector_size _ _ E F). lia.
Qed.
Lemma done_inj {A} (x y : A) : Done x = Done y -> x = y.
Proof. congruence. Qed.
Lemma object_size b nfr grp off obj ops K : 0 <= nfr -> 0 <= K ->
  (forall ex, el (e_exc (b_enh b)) obj = Done ex -> ex_num ex <= K /\ Forall (fun s => sc_pre s = 1) (ex_sec ex)) ->
  x_object b nfr grp off obj = Done ops -> size ops <= 45 + 45 * nfr + 5 * K.
Proof.
  intros Hn HK Hx H. unfold x_object in H.
  destruct (x_goa_id _ _ _ _); try discriminate.
  destruct (each (Z.to_nat nfr) 0 _) as [frs| |] eqn:Ef; try discriminate.
  apply (each_size _ 45) in Ef; [|intros; eapply frame_size; eassumption]. rewrite Z2Nat.id in Ef by exact Hn.
  do 7 (match type of H with context [match ?c with Done _ => _ | Jmp _ => _ | UB _ => _ end] => destruct c; try discriminate end).
  destruct (el (e_exc (b_enh b)) obj) as [ex| |] eqn:Ex; try discriminate.
  destruct (Hx ex eq_refl) as (Hk & Hp).
  destruct (each (Z.to_nat (ex_num ex)) 0 _) as [ss| |] eqn:Es; try discriminate.
  apply sectors_size in Es; [|exact Hp]. apply done_inj in H. subst ops.
  rewrite !size_app. change (size [WB a 9; WB (oc_dyn (b_cfg b)) 1; WB (oc_uni (b_cfg b)) 1; WB nfr 6]) with 17.
  match goal with |- 17 + (size frs + (?x + size ss)) <= _ => change x with 28 end. lia.
Qed.
Lemma oam_size b ops K nfr : x_oam_meta b = Done ops -> 0 <= o_n (b_st b) -> 0 <= K ->
  nfr = Z.quot (oc_ccfl (b_cfg b)) (oc_fl (b_cfg b)) -> 0 <= nfr ->
  (forall i ex, nth_error (e_exc (b_enh b)) i = Some ex -> ex_num ex <= K /\ Forall (fun s => sc_pre s = 1) (ex_sec ex)) ->
  size ops <= 33 + o_n (b_st b) * (45 + 45 * nfr + 5 * K).
Proof.
  intros H Hn HK Hq Hf Hx. unfold x_oam_meta in H. rewrite <- Hq in H.
  destruct (oc_fl (b_cfg b) =? 0); try discriminate.
  destruct (first_obj _ _ _ _) as [[grp off]| |]; try discriminate.
  destruct (each (Z.to_nat (o_n (b_st b))) 0 (x_object b nfr grp off)) as [os| |] eqn:E; try discriminate.
  apply (each_size _ (45 + 45 * nfr + 5 * K)) in E.
  2:{ intros i o Ho. eapply object_size; try eassumption. intros ex Ex. unfold el in Ex.
      destruct ((0 <=? i) && (i <? _)); try discriminate.
      destruct (nth_error _ (Z.to_nat i)) eqn:N; try discriminate. injection Ex as ->. eapply Hx, N. }
  rewrite Z2Nat.id in E by exact Hn. apply done_inj in H. subst ops.
  match goal with |- size (WB ?a 6 :: WB ?t 2 :: WB ?c 9 :: ?l) <= _ =>
    change (size (WB a 6 :: WB t 2 :: WB c 9 :: l)) with (6 + (2 + (9 + size l))) end.
  rewrite size_app.
  assert (T : size (if pm_present (b_prod b) =? 1 then [WB 1 3; WB 0 3; WB (pm_len (b_prod b)) 10] else [WB 0 3]) <= 16)
    by (destruct (pm_present (b_prod b) =? 1); cbn; lia).
  lia.
Qed.
