(** * Lem_ExtRenOb: the object metadata as the external renderer reads it *)

From Coq Require Import ZArith List Lia Bool ZifyBool.
From Verif Require Import Bits BitBuf BitWrite Prog Wp F32 Pcm Config Hoa Oam Lem_MhasProps
  Spec_Config Spec_ConfigFull ExtRen Spec_ExtRen Lem_OamFrame Lem_ExtRen Lem_ExtRenCh.
Import ListNotations.
Open Scope Z_scope.

Ltac okW := repeat (apply Forall_cons; [cbn [op_ok]; lia|]); try apply Forall_nil.
Ltac rdw := rewrite rdW by (try lia; cbn; lia).
Ltac sgw := rewrite sgW by (try lia; cbn; lia).

Lemma first_obj_one q n grp off : one_group q n grp off ->
  first_obj (Z.to_nat (q_num q)) 0 0 q = Done (Z.of_nat grp, off).
Proof.
  intros (H1 & H2 & T & N & B & ->).
  enough (X : forall m k a, (k <= grp)%nat -> Z.of_nat grp < Z.of_nat (k + m) ->
    first_obj m (Z.of_nat k) a q =
      Done (Z.of_nat grp, a + fold_right Z.add 0 (firstn (grp - k) (skipn k (q_nsig q))))).
  { assert (Y := X (Z.to_nat (q_num q)) 0%nat 0 ltac:(lia) ltac:(lia)). cbn [Z.of_nat skipn] in Y.
    rewrite Y. rewrite Nat.sub_0_r. reflexivity. }
  induction m as [|m IH]; intros k a Hk Hm; [lia|]. cbn [first_obj].
  destruct (Nat.eq_dec k grp) as [->|Ne].
  - rewrite (el_nth _ _ _ T). cbn [Z.eqb Pos.eqb]. rewrite Nat.sub_diag. cbn [firstn fold_right].
    rewrite Z.add_0_r. reflexivity.
  - destruct (B k ltac:(lia)) as (t & Tk & Tn). rewrite (el_nth _ _ _ Tk).
    destruct (Z.eqb_spec t 1); [contradiction|].
    destruct (el_ex (q_nsig q) k ltac:(lia)) as (v & Nv & Ev). rewrite Ev.
    replace (Z.of_nat k + 1) with (Z.of_nat (S k)) by lia. rewrite IH by lia.
    assert (Y : skipn k (q_nsig q) = v :: skipn (S k) (q_nsig q)).
    { clear - Nv. revert k Nv. induction (q_nsig q) as [|x b IHb]; intros [|k] Nv; try discriminate.
      - injection Nv as ->. reflexivity.
      - cbn [skipn]. apply IHb in Nv. exact Nv. }
    rewrite Y. replace (grp - k)%nat with (S (grp - S k)) by lia. cbn [firstn fold_right].
    do 2 f_equal. lia.
Qed.

Definition p_frm (dyn uni : Z) : prog (option goa_pos) :=
  h <- rd 1 ;; if h =? 0 then Ret None else x <- p_pos dyn uni ;; Ret (Some x).

Lemma send_pos b k i : 0 <= oc_dyn (b_cfg b) <= 1 -> 0 <= oc_uni (b_cfg b) <= 1 -> 0 <= o_n (b_st b) ->
  pos_ok b k i ->
  exists ops x, x_oam_frame b (o_n (b_st b)) (Z.of_nat i) (Z.of_nat k) = Done ops /\ pos_view b k i x /\
    sends ops (p_frm (oc_dyn (b_cfg b)) (oc_uni (b_cfg b))) x.
Proof.
  intros Hd Hu Hn (H & A & E & R & G & P & W & Hh & D). unfold x_oam_frame.
  replace (Z.of_nat k * o_n (b_st b) + Z.of_nat i)
    with (Z.of_nat (k * Z.to_nat (o_n (b_st b)) + i)) by lia.
  unfold pos_view. set (j := (k * Z.to_nat (o_n (b_st b)) + i)%nat) in *.
  destruct H as (h & Nh & Rh), A as (az & Na & Ra), E as (e & Ne & Re), R as (r & Nr & Rr),
    G as (g & Ng & Rg), P as (p & Np & Rp), W as (sw & Nw & Rw), Hh as (sh & Ns & Rs), D as (sd & Nd & Rd).
  cbn zeta. rewrite (el_nth _ _ _ Nh). destruct (Z.eqb_spec h 1) as [->|Hne].
  - rewrite (el_nth _ _ _ Na), (el_nth _ _ _ Ne), (el_nth _ _ _ Nr), (el_nth _ _ _ Ng), (el_nth _ _ _ Np),
      (el_nth _ _ _ Nw), (el_nth _ _ _ Ns), (el_nth _ _ _ Nd).
    do 2 eexists. split; [reflexivity|]. split.
    { right. split; [exact Nh|]. exists az, e, r, g, p, sw, sh, sd. repeat split; try eassumption. }
    assert (Cd : oc_dyn (b_cfg b) = 0 \/ oc_dyn (b_cfg b) = 1) by lia.
    assert (Cu : oc_uni (b_cfg b) = 0 \/ oc_uni (b_cfg b) = 1) by lia.
    destruct Cd as [-> | ->], Cu as [-> | ->]; cbn [Z.eqb Pos.eqb app];
      (split; [okW|]; intros rr; unfold p_frm; rdw; cbn [Z.eqb Pos.eqb]; unfold p_pos;
       rewrite bind_assoc; sgw; rewrite bind_assoc; sgw; rewrite bind_assoc; rdw; rewrite bind_assoc; sgw;
       cbn [Z.eqb Pos.eqb]; rewrite ?bind_assoc; cbn [bind]; rewrite ?bind_assoc; repeat (rdw; cbn [bind]; rewrite ?bind_assoc); reflexivity).
  - assert (h = 0) by lia. subst h. do 2 eexists. split; [reflexivity|]. split; [left; auto|].
    split; [okW|]. intros rr. unfold p_frm. rdw. reflexivity.
Qed.

Lemma w32_trunc d v : trunc d = Some v -> -180 <= v <= 180 -> w32 d = Done v.
Proof.
  intros T R. unfold w32, to_int. rewrite T. change (2 ^ 31) with 2147483648.
  replace ((-(2147483648) <=? v) && (v <=? 2147483648 - 1)) with true by lia. reflexivity.
Qed.
Lemma send_sector s : sect_ok s -> exists ops g, x_sector s = Done ops /\ sect_view s g /\ sends ops p_sect g.
Proof.
  unfold x_sector, sect_view. intros [(F1 & F2)|(F1 & F2)]; rewrite F1; cbn [Z.eqb].
  - do 2 eexists. split; [reflexivity|]. split; [reflexivity|]. split; [okW|].
    intros r. unfold p_sect. rdw. cbn [Z.eqb]. rdw. reflexivity.
  - inversion F2 as [|? ? (a & Ta & Ra) G1]; subst. inversion G1 as [|? ? (b & Tb & Rb) G2]; subst.
    inversion G2 as [|? ? (e & Te & Re) G3]; subst. inversion G3 as [|? ? (f & Tf & Rf) G4]; subst.
    rewrite (w32_trunc _ _ Ta Ra), (w32_trunc _ _ Tb Rb), (w32_trunc _ _ Te Re), (w32_trunc _ _ Tf Rf).
    do 2 eexists. split; [reflexivity|]. split; [exists a, b, e, f; repeat split; assumption|]. split; [okW|].
    intros r. unfold p_sect. rdw. cbn [Z.eqb]. rewrite !rdWm by lia. reflexivity.
Qed.
Lemma send_sectors ex : 0 <= ex_num ex <= Z.of_nat (length (ex_sec ex)) ->
  Forall sect_ok (firstn (Z.to_nat (ex_num ex)) (ex_sec ex)) ->
  exists ops gs, each (Z.to_nat (ex_num ex)) 0 (fun i => dof s <- el (ex_sec ex) i ; x_sector s) = Done ops /\
    Forall2 sect_view (firstn (Z.to_nat (ex_num ex)) (ex_sec ex)) gs /\
    sends ops (many (Z.to_nat (ex_num ex)) p_sect) gs.
Proof.
  intros L F. set (l := firstn (Z.to_nat (ex_num ex)) (ex_sec ex)) in *.
  assert (Ll : length l = Z.to_nat (ex_num ex)) by (unfold l; rewrite firstn_length; lia).
  destruct (each_sends p_sect (fun k g => exists s, nth_error l k = Some s /\ sect_view s g)
    (fun i => dof s <- el (ex_sec ex) i ; x_sector s) (Z.to_nat (ex_num ex)) 0 0%nat) as (ops & gs & E & Lg & N & Sg).
  - intros k Hk. destruct (nth_error l k) as [s|] eqn:Nk; [|apply nth_error_None in Nk; lia].
    rewrite Z.add_0_l. assert (N2 : nth_error (ex_sec ex) k = Some s).
    { eapply firstn_nth; [|exact Nk]. rewrite Ll. reflexivity. }
    rewrite (el_nth _ _ _ N2). eapply Forall_forall in F; [|eapply nth_error_In, Nk].
    destruct (send_sector s F) as (o & g & E1 & V1 & S1). exists o, g. cbn [Nat.add]. eauto.
  - exists ops, gs. split; [exact E|]. split; [|exact Sg]. cbn [Nat.add] in N.
    clear - Ll Lg N. revert gs Lg N. rewrite <- Ll. clear. generalize l. clear.
    induction l as [|s l IH]; intros [|g gs] Lg N; try discriminate; [constructor|].
    constructor.
    + destruct (N 0%nat g eq_refl) as (s' & K & V). injection K as <-. exact V.
    + apply IH; [cbn in Lg; lia|]. intros k v K. apply (N (S k) v K).
Qed.

Lemma send_object b nfr grp off i : ob_ok b nfr grp off -> (i < Z.to_nat (o_n (b_st b)))%nat ->
  exists ops g, x_object b (Z.of_nat nfr) (Z.of_nat grp) off (Z.of_nat i) = Done ops /\
    ob_view b nfr grp off i g /\ sends ops p_obj g.
Proof.
  intros (Hfl & Hcc & Hnf & Hnf2 & Hd & Hu & Hn & Pm & Og & Ho & Ho2 & f & p & Fr & Pr & Fg & Pg & H) Hi.
  destruct (H i Hi) as (Hpos & Hid & Fi & Pi & (df & vf & Df & Tf & Rf) & (dv & vv & Dv & Tv & Rv) & (rg & Nr & Rr) & (ex & Nx & X1 & X2 & X3)).
  unfold x_object.
  assert (Id : exists id, x_goa_id (b_ids b) (Z.of_nat grp) (Z.of_nat i) off = Done id /\ 0 <= id < 512 /\
     match b_ids b with
     | None => id = off + Z.of_nat i
     | Some t => exists l, nth_error t grp = Some l /\ nth_error l i = Some id end).
  { unfold x_goa_id. destruct (b_ids b) as [t|].
    - destruct Hid as (l & v & N1 & N2 & Rvv). exists v. rewrite (el_nth _ _ _ N1), (el_nth _ _ _ N2). eauto.
    - exists (off + Z.of_nat i). split; [|split; [lia|reflexivity]]. f_equal.
      unfold to_s, to_u. change (2 ^ 16) with 65536. change (2 ^ (16 - 1)) with 32768.
      rewrite Z.mod_small by lia. destruct (Z.ltb_spec (off + Z.of_nat i) 32768); lia. }
  destruct Id as (id & Ei & Ri & Vi). rewrite Ei.
  destruct (each_sends (p_frm (oc_dyn (b_cfg b)) (oc_uni (b_cfg b))) (fun k x => pos_view b k i x)
              (x_oam_frame b (o_n (b_st b)) (Z.of_nat i)) nfr 0 0%nat) as (frs & xs & Ef & Lf & Nf & Sf).
  { intros k Hk. cbn [Nat.add Z.add]. destruct (send_pos b k i Hd Hu ltac:(lia) (Hpos k Hk)) as (o & x & E1 & V1 & S1).
    exists o, x. rewrite <- E1. auto. }
  rewrite Nat2Z.id, Ef. rewrite (el_nth _ _ _ Fi), (el_nth _ _ _ Pi), (el_nth _ _ _ Df).
  rewrite (w32_trunc _ _ Tf ltac:(lia)). rewrite (el_nth _ _ _ Dv), (w32_trunc _ _ Tv ltac:(lia)).
  rewrite (el_nth _ _ _ Nr), (el_nth _ _ _ Nx).
  destruct (send_sectors ex ltac:(lia) X3) as (ss & sg & Es & Vs & Ss). rewrite Es.
  eexists. exists (mkGo id xs f p vf vv rg sg).
  split; [reflexivity|]. split.
  { unfold ob_view. cbn [go_id go_frames go_fixed go_prio go_diff go_div go_range go_sect].
    split; [exact Vi|]. split; [exact Lf|]. split; [exact Nf|]. repeat split; eauto. }
  split.
  - apply Forall_app. split; [okW|]. apply Forall_app. split; [apply Sf|].
    apply Forall_app. split; [okW|]. apply Ss.
  - intros r. unfold p_obj. cbn [app]. rdw. rdw. rdw. rdw. rewrite Nat2Z.id.
    fold (p_frm (oc_dyn (b_cfg b)) (oc_uni (b_cfg b))).
    rewrite (sends_bind _ _ _ _ _ _ Sf). do 6 rdw.
    destruct Ss as (_ & Rs). rewrite runA_bind, Rs. reflexivity.
Qed.

Lemma send_objects b nfr grp off mem : ob_ok b nfr grp off -> are_bytes mem -> (0 < length mem)%nat ->
  exists d n gs, ob_store b mem = Done (d, n) /\ length d = length mem /\
    length gs = Z.to_nat (o_n (b_st b)) /\
    (forall i g, nth_error gs i = Some g -> ob_view b nfr grp off i g) /\
    (n <= Z.of_nat (length mem) -> reads p_goa d (mkFc (oc_fl (b_cfg b) / 64) 0 0, gs, [])).
Proof.
  intros Ok B L. pose proof Ok as (Hfl & Hcc & Hnf & Hnf2 & Hd & Hu & Hn & Pm & Og & Ho & Ho2 & _).
  unfold ob_store, x_oam_meta. destruct (Z.eqb_spec (oc_fl (b_cfg b)) 0); [lia|].
  rewrite (first_obj_one _ _ _ _ Og). rewrite Z.quot_div_nonneg by lia. rewrite <- Hnf.
  destruct (each_sends p_obj (fun i g => ob_view b nfr grp off i g)
     (x_object b (Z.of_nat nfr) (Z.of_nat grp) off) (Z.to_nat (o_n (b_st b))) 0 0%nat) as (ops & gs & E & Lg & Ng & Sg).
  { intros k Hk. destruct (send_object b nfr grp off k Ok Hk) as (o & g & E1 & V1 & S1).
    exists o, g. auto. }
  rewrite E. destruct (Z.eqb_spec (pm_present (b_prod b)) 1); [contradiction|].
  rewrite Z.shiftr_div_pow2 by lia. change (2 ^ 6) with 64.
  assert (Q : 0 <= oc_fl (b_cfg b) / 64 < 64).
  { split; [apply Z.div_pos; lia|apply Z.div_lt_upper_bound; lia]. }
  destruct (store_reads (WB (oc_fl (b_cfg b) / 64) 6 :: WB 0 2 :: WB (o_n (b_st b)) 9 :: ops ++ [WB 0 3])
     mem p_goa (mkFc (oc_fl (b_cfg b) / 64) 0 0, gs, [])) as (d & m & E2 & _ & Ld & Rd); auto.
  { set (q := oc_fl (b_cfg b) / 64) in *. clearbody q. split.
    - okW. apply Forall_app. split; [apply Sg|okW].
    - intros r. unfold p_goa, p_frame. rewrite bind_assoc. rdw. rewrite bind_assoc. rdw. cbn [Z.eqb bind].
      rdw. rewrite (sends_bind _ _ _ _ _ _ Sg). unfold p_exts. rewrite bind_assoc. rdw. reflexivity. }
  exists d, m, gs. auto.
Qed.
