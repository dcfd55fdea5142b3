(** * Lem_ExtRenCh: the channel metadata as the external renderer reads it *)

From Coq Require Import ZArith List Lia Bool ZifyBool.
From Verif Require Import Bits BitBuf BitWrite Prog Wp F32 Pcm Config Hoa Oam Lem_MhasProps
  Spec_Config Spec_ConfigFull ExtRen Spec_ExtRen Lem_OamFrame Lem_ExtRen.
Import ListNotations.
Open Scope Z_scope.

(** ** Lists *)

Lemma each_list {A} (p : prog A) body : forall vs i,
  (forall k v, nth_error vs k = Some v -> exists ops, body (i + Z.of_nat k) = Done ops /\ sends ops p v) ->
  exists ops, each (length vs) i body = Done ops /\ sends ops (many (length vs) p) vs.
Proof.
  induction vs as [|v vs IH]; intros i H.
  - exists []. split; [reflexivity|]. split; [constructor|reflexivity].
  - destruct (H 0%nat v eq_refl) as (o & E & (O1 & R1)). rewrite Z.add_0_r in E.
    destruct (IH (i + 1)) as (ops & E2 & (O2 & R2)).
    { intros k w K. destruct (H (S k) w K) as (o' & E' & S').
      exists o'. replace (i + Z.of_nat (S k)) with (i + 1 + Z.of_nat k) in E' by lia. auto. }
    exists (o ++ ops). cbn [length each]. rewrite E, E2. split; [reflexivity|].
    split; [apply Forall_app; auto|]. intros r. cbn [many].
    rewrite obits_app, <- app_assoc, runA_bind, R1, runA_bind, R2. reflexivity.
Qed.
Lemma sends_rd n v : 0 <= n <= 24 -> 0 <= v < 2 ^ n -> sends [WB v n] (rd n) v.
Proof.
  intros Hn Hv. split; [constructor; [cbn [op_ok]; lia|constructor]|].
  intros r. rewrite rdW0 by assumption. reflexivity.
Qed.
Lemma firstn_nth {A} (l vs : list A) k v : firstn (length vs) l = vs -> nth_error vs k = Some v ->
  nth_error l k = Some v.
Proof.
  intros F K. assert (k < length vs)%nat by (apply nth_error_Some; congruence).
  rewrite <- F in K. rewrite nth_firstn in K by assumption. exact K.
Qed.
Lemma each_table (n : Z) (tab : list Z) : 0 <= n <= 24 -> forall vs,
  firstn (length vs) tab = vs -> Forall (fun v => 0 <= v < 2 ^ n) vs ->
  exists ops, each (length vs) 0 (fun i => dof v <- el tab i ; Done [WB v n]) = Done ops /\
    sends ops (many (length vs) (rd n)) vs.
Proof.
  intros Hn vs F B. apply each_list. intros k v K. exists [WB v n]. rewrite Z.add_0_l.
  rewrite (el_nth _ _ _ (firstn_nth _ _ _ _ F K)). split; [reflexivity|]. apply sends_rd; [exact Hn|].
  eapply Forall_forall in B; [exact B|]. eapply nth_error_In, K.
Qed.

(** ** Layouts *)

Lemma send_layout l also : lay_ok l ->
  exists ops, x_spk3d l also = Done (ops, if l_type l =? 1 then s_l_idx l (-1) else l) /\
    sends ops p_layout (lay_view l).
Proof.
  intros [(T & I)|(T & N & N2 & B)]; unfold x_spk3d, lay_view; rewrite T; cbn [Z.eqb].
  - eexists. split; [reflexivity|]. split; [repeat constructor; cbn [op_ok]; lia|].
    intros r. unfold p_layout. rewrite rdW by lia. cbn [Z.eqb]. rewrite rdW by (cbn; lia). reflexivity.
  - set (vs := firstn (Z.to_nat (l_num l)) (l_spk l)).
    assert (L : length vs = Z.to_nat (l_num l)) by (unfold vs; rewrite firstn_length; lia).
    destruct (each_table 7 (l_spk l) ltac:(lia) vs) as (ops & E & (O & R)).
    + rewrite L. reflexivity.
    + unfold vs. rewrite <- (firstn_skipn (Z.to_nat (l_num l))) in B. apply Forall_app in B. apply B.
    + rewrite L in E, R. rewrite E. eexists. split; [reflexivity|]. split.
      * constructor; [cbn [op_ok]; lia|]. constructor; [cbn [op_ok]; lia|exact O].
      * intros r. unfold p_layout. rewrite rdW by lia. cbn [Z.eqb Pos.eqb].
        rewrite esW by (cbn; lia). replace (l_num l - 1 + 1) with (l_num l) by lia.
        rewrite runA_bind, R. reflexivity.
Qed.

(** ** Downmix matrices *)

Lemma each_bytes (b : list Z) : forall q k, (k + q <= length b)%nat ->
  exists ops, each q (Z.of_nat k) (fun i => dof v <- el b i ; Done [WB v 8]) = Done ops /\
    Forall op_ok ops /\ obits ops = bytes_bits (firstn q (skipn k b)).
Proof.
  induction q as [|q IH]; intros k H.
  - exists []. repeat split; constructor.
  - destruct (el_ex b k ltac:(lia)) as (v & N & E).
    destruct (IH (S k) ltac:(lia)) as (ops & E2 & O & X).
    cbn [each]. rewrite E. replace (Z.of_nat k + 1) with (Z.of_nat (S k)) by lia. rewrite E2.
    eexists. split; [reflexivity|]. split.
    + constructor; [cbn [op_ok]; lia|exact O].
    + cbn [app]. rewrite obits_cons, X.
      assert (Y : skipn k b = v :: skipn (S k) b).
      { clear - N. revert k N. induction b as [|x b IHb]; intros [|k] N; try discriminate.
        - injection N as ->. reflexivity.
        - cbn [skipn]. apply IHb in N. exact N. }
      rewrite Y. cbn [firstn op_fields fields_bits flat_map fst snd bytes_bits].
      rewrite app_nil_r, bits_u32 by (cbn; lia). reflexivity.
Qed.
Lemma bytes_bits_len b : length (bytes_bits b) = (8 * length b)%nat.
Proof. induction b; [reflexivity|]. cbn [bytes_bits flat_map]. fold (bytes_bits b). rewrite app_length, bits_of_length. cbn [length]. lia. Qed.
Lemma bytes_bits_app x y : bytes_bits (x ++ y) = bytes_bits x ++ bytes_bits y.
Proof. apply flat_map_app. Qed.
Lemma send_bits (b : list Z) (len : nat) : (len <= 8 * length b)%nat ->
  exists ops, x_mtx_bits (Z.of_nat len) b = Done ops /\ Forall op_ok ops /\
    obits ops = firstn len (bytes_bits b).
Proof.
  intros H. unfold x_mtx_bits.
  set (q := (len / 8)%nat). set (r := (len mod 8)%nat).
  assert (D : len = (8 * q + r)%nat) by (apply Nat.div_mod; lia).
  assert (Hr : (r < 8)%nat) by (apply Nat.mod_upper_bound; lia).
  assert (E1 : Z.of_nat len / 8 = Z.of_nat q).
  { symmetry. apply Z.div_unique with (Z.of_nat r); lia. }
  assert (E2 : Z.of_nat len mod 8 = Z.of_nat r).
  { symmetry. apply Z.mod_unique with (Z.of_nat q); lia. }
  rewrite E1, E2, Nat2Z.id. clearbody q r.
  destruct (each_bytes b q 0 ltac:(lia)) as (ops & E & O & X). cbn [Z.of_nat] in E. rewrite E.
  cbn [skipn] in X.
  destruct (Z.eqb_spec (Z.of_nat r) 0) as [Z0|Z0].
  - exists ops. split; [reflexivity|]. split; [exact O|]. rewrite X.
    rewrite <- (firstn_skipn q b) at 2. rewrite bytes_bits_app.
    rewrite firstn_app. rewrite bytes_bits_len, firstn_length.
    replace (len - 8 * Nat.min q (length b))%nat with 0%nat by lia. cbn [firstn]. rewrite app_nil_r.
    symmetry. apply firstn_all2. rewrite bytes_bits_len, firstn_length. lia.
  - destruct (el_ex b q ltac:(lia)) as (v & N & Ev). rewrite Ev. eexists. split; [reflexivity|]. split.
    + apply Forall_app. split; [exact O|]. constructor; [cbn [op_ok]; lia|constructor].
    + rewrite obits_app, X.
      assert (Y : b = firstn q b ++ v :: skipn (S q) b).
      { clear - N. revert q N. induction b as [|x b IHb]; intros [|q] N; try discriminate.
        - injection N as ->. reflexivity.
        - cbn [firstn skipn app]. f_equal. apply IHb, N. }
      rewrite Y at 2. rewrite bytes_bits_app. change (bytes_bits (v :: skipn (S q) b)) with (bits_of 8 v ++ bytes_bits (skipn (S q) b)).
      rewrite firstn_app, bytes_bits_len, firstn_length.
      replace (Nat.min q (length b)) with q by lia.
      rewrite (firstn_all2 (n := len) (bytes_bits (firstn q b))) by (rewrite bytes_bits_len, firstn_length; lia).
      f_equal.
      replace (len - 8 * q)%nat with r by lia. rewrite firstn_app, bits_of_length.
      replace (r - 8)%nat with 0%nat by lia. cbn [firstn]. rewrite app_nil_r.
      unfold obits. cbn [flat_map op_fields fields_bits fst snd app]. rewrite app_nil_r, Nat2Z.id.
      rewrite bits_u32 by lia. replace 8%nat with (r + (8 - r))%nat by lia. rewrite bits_of_split.
      rewrite firstn_app, bits_of_length, Nat.sub_diag. cbn [firstn]. rewrite app_nil_r.
      rewrite firstn_all2 by (rewrite bits_of_length; lia). rewrite Z.shiftr_div_pow2 by lia.
      repeat f_equal. lia.
Qed.
Lemma many_bits bs : forall r, runA (many (length bs) (rd 1)) (bs ++ r) = Done (map (fun b : bool => if b then 1 else 0) bs, r).
Proof.
  induction bs as [|b bs IH]; intros r; [reflexivity|]. cbn [length many app map].
  replace (b :: bs ++ r) with (bits_of 1 (if b then 1 else 0) ++ bs ++ r) by (destruct b; reflexivity).
  rewrite runA_rdb by (destruct b; cbn; lia). rewrite runA_bind, IH. reflexivity.
Qed.
Lemma map_bits bs : map (fun b => b =? 1) (map (fun b : bool => if b then 1 else 0) bs) = bs.
Proof. rewrite map_map. rewrite <- (map_id bs) at 2. apply map_ext. intros []; reflexivity. Qed.

Lemma send_mtx m j t : valid_mtx t -> (length (t_bits t) <= 2048)%nat -> holds_mtx t j m ->
  exists ops, x_mtx m (Z.of_nat j) = Done ops /\ sends ops p_mtx t.
Proof.
  intros (G1 & G2 & _) B2 (N1 & (g & N2 & F2) & N3 & (b & N4 & F4)). unfold x_mtx.
  rewrite (el_nth _ _ _ N1), (el_nth _ _ _ N2), (el_nth _ _ _ N3), (el_nth _ _ _ N4).
  rewrite Nat2Z.id.
  destruct (each_table 5 g ltac:(lia) (t_groups t) F2 G2) as (ops & E & (O & R)). rewrite E.
  assert (L4 : (length (t_bits t) <= 8 * length b)%nat).
  { rewrite <- bytes_bits_len. rewrite <- F4 at 1. rewrite firstn_length. lia. }
  destruct (send_bits b _ L4) as (body & E2 & O2 & X2). rewrite E2. rewrite F4 in X2.
  eexists. split; [reflexivity|]. split.
  - constructor; [cbn [op_ok]; lia|]. apply Forall_app. split; [exact O|].
    constructor; [cbn [op_ok]; lia|exact O2].
  - intros r. unfold p_mtx. rewrite esW by (cbn; lia).
    replace (Z.to_nat (Z.of_nat (length (t_groups t)) - 1 + 1)) with (length (t_groups t)) by lia.
    rewrite obits_app, <- app_assoc, runA_bind, R. rewrite esW by (cbn; lia).
    rewrite X2, Nat2Z.id, runA_bind, many_bits. cbn [runA]. rewrite map_bits. destruct t; reflexivity.
Qed.

Lemma send_dent cicp e m : valid_dent e -> dent_fits e -> holds_dent e m -> e_lay e = cicp ->
  exists ops, x_dent cicp m = Done ops /\ sends ops p_dent e.
Proof.
  intros (V1 & V2 & V3) F (H1 & H2 & H3) <-. unfold x_dent. rewrite H2, Z.eqb_refl.
  unfold dent_fits in F. destruct e as [id lay [l|]]; cbn [e_id e_lay e_mtx] in *.
  - destruct H3 as (T & C & H3). destruct V3 as (V3 & V4). rewrite T, C. cbn [Z.eqb Pos.eqb]. rewrite Nat2Z.id.
    destruct (each_list p_mtx (x_mtx m) l 0) as (ops & E & (O & R)).
    { intros k t K. rewrite Z.add_0_l. apply send_mtx; [| |apply H3, K].
      - eapply Forall_forall in V4; [exact V4|]. eapply nth_error_In, K.
      - eapply Forall_forall in F; [exact F|]. eapply nth_error_In, K. }
    rewrite E. eexists. split; [reflexivity|]. split.
    + do 4 (constructor; [cbn [op_ok]; lia|]). exact O.
    + intros r. unfold p_dent. rewrite rdW by (cbn; lia). rewrite rdW by (cbn; lia). cbn [Z.eqb Pos.eqb].
      rewrite rdW by (cbn; lia). rewrite esW by (cbn; lia).
      replace (Z.to_nat (Z.of_nat (length l) - 1 + 1)) with (length l) by lia.
      rewrite runA_bind, R. cbn [runA]. rewrite H1. reflexivity.
  - rewrite H3. cbn [Z.eqb]. eexists. split; [reflexivity|]. split.
    + do 3 (constructor; [cbn [op_ok]; lia|]). constructor.
    + intros r. unfold p_dent. rewrite rdW by (cbn; lia). rewrite rdW by (cbn; lia). cbn [Z.eqb Pos.eqb].
      rewrite rdW by (cbn; lia). cbn [runA]. rewrite H1. reflexivity.
Qed.

(** The downmix flag and the downmix. *)
Definition p_opt_dmx : prog (option gdmx) :=
  d <- rd 1 ;; (if d =? 0 then Ret None else x <- p_dmx ;; Ret (Some x)).
Lemma send_active x a none : holds_active a none x ->
  sends (if (dx_type x =? 0) || (dx_type x =? 2) then
           WB (dx_passive x) 1 :: (if dx_passive x =? 0 then [WB (dx_phase x) 3] else []) ++ [WB (dx_imm x) 1] else [])
    (if (dx_type x =? 0) || (dx_type x =? 2) then
       p <- rd 1 ;; s <- (if p =? 0 then y <- rd 3 ;; Ret (Some y) else Ret None) ;; i <- rd 1 ;; Ret (Some (p, s, i)) else Ret None) a.
Proof.
  unfold holds_active, bit. destruct a as [[[p s] im]|].
  - intros (T & P & I & <- & <- & W). replace ((dx_type x =? 0) || (dx_type x =? 2)) with true by lia.
    destruct s as [v|]; [destruct W as (W & <- & V)|]; rewrite W; cbn [Z.eqb Pos.eqb app].
    + split; [repeat (constructor; [cbn [op_ok]; lia|]); constructor|]. intros r.
      rewrite rdW by (cbn; lia). cbn [Z.eqb]. rewrite bind_assoc. rewrite rdW by (cbn; lia). cbn [bind]. rewrite rdW by (cbn; lia). reflexivity.
    + split; [repeat (constructor; [cbn [op_ok]; lia|]); constructor|]. intros r.
      rewrite rdW by (cbn; lia). cbn [Z.eqb Pos.eqb bind]. rewrite rdW by (cbn; lia). reflexivity.
  - intros T. rewrite T. cbn [Z.eqb Pos.eqb orb]. split; [constructor|]. intros r. reflexivity.
Qed.

Lemma send_dmx c dm : dmx_for c dm ->
  exists ops, (if c_dmxp c =? 0 then Done [] else x_dmx (c_dmx c) (c_cicp c)) = Done ops /\
    sends (WB (c_dmxp c) 1 :: ops) p_opt_dmx dm.
Proof.
  unfold dmx_for. destruct dm as [[a l]|].
  - intros (P & HA & C & H & V & F & L & A). rewrite P. cbn [Z.eqb].
    pose proof (send_active _ _ _ HA) as (OA & RA). unfold x_dmx.
    assert (TT : 0 <= dx_type (c_dmx c) < 3).
    { unfold holds_active in HA. destruct a as [[[p s] im]|]; [destruct HA as ([T|[T _]] & _); lia|lia]. }
    destruct (each_list p_dent (fun i => dof m <- el (dx_mat (c_dmx c)) i ; x_dent (c_cicp c) m) l 0)
      as (ops & E & (O & R)).
    { intros k e K. rewrite Z.add_0_l. destruct (H k e K) as (m & M & Hm). rewrite (el_nth _ _ _ M).
      apply nth_error_In in K. eapply Forall_forall in V; [|exact K].
      eapply Forall_forall in F; [|exact K]. eapply Forall_forall in A; [|exact K].
      apply (send_dent (c_cicp c) e m V F Hm A). }
    destruct ((dx_type (c_dmx c) =? 1) || (dx_type (c_dmx c) =? 2)) eqn:T12.
    + assert (CC : dx_cnt (c_dmx c) = Z.of_nat (length l)) by (apply C; right; lia). rewrite CC, Nat2Z.id, E.
      eexists. split; [reflexivity|]. split.
      * do 2 (constructor; [cbn [op_ok]; lia|]). apply Forall_app. split; [exact OA|]. constructor; [cbn [op_ok]; lia|exact O].
      * intros r. unfold p_opt_dmx. rewrite rdW by (cbn; lia). cbn [Z.eqb Pos.eqb]. unfold p_dmx.
        rewrite bind_assoc. rewrite rdW by (cbn; lia). rewrite T12. rewrite bind_assoc. rewrite obits_app, <- app_assoc, runA_bind, RA. cbv beta iota.
        rewrite bind_assoc, bind_assoc. rewrite rdW by (cbn; lia). rewrite Nat2Z.id, runA_bind, R. reflexivity.
    + assert (NL : l = []).
      { unfold holds_active in HA. destruct a as [[[p s] im]|]; [destruct HA as ([T|[_ T]] & _); [lia|exact T]|lia]. }
      subst l. eexists. split; [reflexivity|]. split.
      * do 2 (constructor; [cbn [op_ok]; lia|]). rewrite app_nil_r. exact OA.
      * intros r. unfold p_opt_dmx. rewrite rdW by (cbn; lia). cbn [Z.eqb Pos.eqb]. unfold p_dmx.
        rewrite bind_assoc. rewrite rdW by (cbn; lia). rewrite T12. rewrite bind_assoc. rewrite app_nil_r, runA_bind, RA. reflexivity.
  - intros P. rewrite P. cbn [Z.eqb]. eexists. split; [reflexivity|]. split.
    + constructor; [cbn [op_ok]; lia|constructor].
    + intros r. unfold p_opt_dmx. rewrite rdW by (cbn; lia). reflexivity.
Qed.

(** ** Groups *)

Lemma each_ids (k : nat) : (k < 32)%nat -> forall n, (n <= 32)%nat ->
  exists ops, each n 0 (fun ch => dof row <- el (repeat (repeat 0 32) 32) (Z.of_nat k) ;
                                  dof v <- el row ch ; Done [WB v 9]) = Done ops /\
    sends ops (many n (rd 9)) (repeat 0 n).
Proof.
  intros Hk n Hn. destruct (each_list (rd 9) (fun ch => dof row <- el (repeat (repeat 0 32) 32) (Z.of_nat k) ;
                                  dof v <- el row ch ; Done [WB v 9]) (repeat 0 n) 0) as (ops & E & S1).
  - intros j v K. assert (j < n)%nat by (rewrite <- (repeat_length 0 n); apply nth_error_Some; congruence).
    assert (v = 0) by (eapply repeat_spec, nth_error_In, K). subst v.
    assert (R : forall {A} (x : A) m i, (i < m)%nat -> nth_error (repeat x m) i = Some x).
    { clear. induction m as [|m IH]; intros i Hi; [lia|]. destruct i; [reflexivity|]. apply IH. lia. }
    rewrite Z.add_0_l.
    rewrite (el_nth (repeat (repeat 0 32) 32) k _ (R _ (repeat 0 32) 32%nat k Hk)).
    rewrite (el_nth (repeat 0 32) j 0) by (apply R; lia).
    eexists. split; [reflexivity|]. apply sends_rd; cbn; lia.
  - rewrite repeat_length in E, S1. eauto.
Qed.

Lemma seek_here types i : nth_error types i = Some 0 -> forall fuel, seek fuel 0 types (Z.of_nat i) = Done (Z.of_nat i).
Proof. intros H fuel. destruct fuel; cbn [seek]; rewrite (el_nth _ _ _ H); reflexivity. Qed.

(** [c] is [c0] with other layouts before group [i]. *)
Definition mid (c0 c : chst) (i : nat) : Prop :=
  exists ls, c = s_c_lay c0 ls /\ length ls = length (q_lay (c_sig c0)) /\
    forall k l, nth_error (q_lay (c_sig c0)) k = Some l ->
      nth_error ls k = Some (if (k <? i)%nat then lay_after c0 k l else l).

Lemma hupd_length {A} (l : list A) i v : (i < length l)%nat -> length (Hoa.upd l i v) = length l.
Proof. intros H. unfold Hoa.upd. replace (i <? length l)%nat with true by (symmetry; apply Nat.ltb_lt, H).
  rewrite app_length, firstn_length. cbn [length]. rewrite skipn_length. lia. Qed.
Lemma hupd_nth {A} (l : list A) i k v : (i < length l)%nat ->
  nth_error (Hoa.upd l i v) k = if (k =? i)%nat then Some v else nth_error l k.
Proof.
  intros H. unfold Hoa.upd. replace (i <? length l)%nat with true by (symmetry; apply Nat.ltb_lt, H).
  revert i k H. induction l as [|x l IH]; intros i k H; [cbn in H; lia|].
  destruct i, k; try reflexivity. cbn [firstn skipn app nth_error length Nat.eqb] in *.
  apply IH. lia.
Qed.

Lemma send_group c0 dm c i : ch_ok c0 -> dmx_for c0 dm -> mid c0 c i ->
  (i < Z.to_nat (q_gch (c_sig c0)))%nat ->
  exists ops c' g, x_ch_group c (Z.of_nat i) (Z.of_nat i) = Done (ops, c', Z.of_nat i + 1) /\
    mid c0 c' (S i) /\ ch_view c0 dm i g /\ sends ops p_gca_group g.
Proof.
  intros (Q & P & G) D (ls & -> & L & M) Hi.
  destruct (G i Hi) as (n & l & f & p & al & T & N & Nr & Ly & Lok & Al & Fx & Fr & Pr & Prr).
  assert (Hls : nth_error ls i = Some l). { rewrite (M i l Ly). rewrite Nat.ltb_irrefl. reflexivity. }
  unfold x_ch_group. unfold s_c_lay at 1 2 3 4 5. cbn [c_sig c_also s_q_lay q_nsig q_lay].
  rewrite (el_nth _ _ _ N), (el_nth _ _ _ Hls). cbn [s_c_lay c_also]. rewrite (el_nth _ _ _ Al).
  destruct (send_layout l al Lok) as (spk & E1 & S1). rewrite E1.
  cbn [c_sig s_c_lay s_q_lay q_type q_nsig q_fixed q_prio c_dmxp c_dmx c_cicp c_prod].
  rewrite (seek_here _ _ T). rewrite (el_nth _ _ _ N).
  destruct (each_ids i ltac:(lia) (Z.to_nat n) ltac:(lia)) as (ids & E2 & S2). rewrite E2.
  rewrite (el_nth _ _ _ Fx), (el_nth _ _ _ Pr).
  destruct (send_dmx c0 dm D) as (dops & E3 & S3). rewrite E3.
  destruct (Z.eqb_spec (pm_present (c_prod c0)) 1); [contradiction|].
  rewrite Nat2Z.id. do 3 eexists. split; [reflexivity|]. split; [|split].
  - exists (Hoa.upd ls i (if l_type l =? 1 then s_l_idx l (-1) else l)).
    assert (Li : (i < length ls)%nat) by (apply nth_error_Some; congruence).
    split; [reflexivity|]. split; [rewrite hupd_length; assumption|].
    intros k l' K. rewrite hupd_nth by exact Li. destruct (Nat.eqb_spec k i) as [->|Ne].
    + assert (l' = l) by congruence. subst l'. unfold lay_after.
      replace (Z.of_nat i <? q_gch (c_sig c0)) with true by lia.
      replace (i <? S i)%nat with true by (symmetry; apply Nat.ltb_lt; lia). reflexivity.
    + rewrite (M k l' K). replace (k <? S i)%nat with (k <? i)%nat; [reflexivity|].
      destruct (Nat.ltb_spec k i), (Nat.ltb_spec k (S i)); try reflexivity; lia.
  - exists n, l, f, p. repeat split; try eassumption.
  - split.
    + constructor; [cbn [op_ok]; lia|]. apply Forall_app. split; [apply S1|].
      apply Forall_app. split; [apply S2|]. destruct S3 as (O3 & _). inversion O3.
      apply Forall_app. split; [do 4 (constructor; [cbn [op_ok]; lia|]); constructor|].
      apply Forall_app. split; [assumption|]. constructor; [cbn [op_ok]; lia|constructor].
    + intros r. unfold p_gca_group. rewrite rdW by (cbn; lia).
      rewrite (sends_bind _ _ _ _ _ _ S1). rewrite (sends_bind _ _ _ _ _ _ S2).
      cbn [app]. rewrite rdW by (cbn; lia). rewrite rdW by (cbn; lia). rewrite rdW by (cbn; lia).
      destruct S3 as (_ & R3). unfold p_opt_dmx in R3.
      match goal with |- runA _ (obits (WB ?x 1 :: ?y ++ ?z) ++ r) = _ =>
        replace (obits (WB x 1 :: y ++ z) ++ r) with (obits (WB x 1 :: y) ++ (obits z ++ r)) end.
      2:{ rewrite !obits_cons, obits_app, <- !app_assoc. reflexivity. }
      specialize (R3 (obits [WB 0 3] ++ r)). rewrite runA_bind in R3. rewrite runA_bind.
      destruct (runA (rd 1) _) as [[d r1]| |]; try discriminate.
      rewrite runA_bind, R3. unfold p_exts. rewrite bind_assoc, rdW by (cbn; lia). reflexivity.
Qed.

Lemma send_groups c0 dm : ch_ok c0 -> dmx_for c0 dm -> forall n i c, mid c0 c i ->
  (i + n = Z.to_nat (q_gch (c_sig c0)))%nat ->
  exists ops c' gs, x_ch_groups n (Z.of_nat i) (Z.of_nat i) c = Done (ops, c') /\
    mid c0 c' (i + n) /\ length gs = n /\
    (forall k g, nth_error gs k = Some g -> ch_view c0 dm (i + k) g) /\ sends ops (many n p_gca_group) gs.
Proof.
  intros Ok D. induction n as [|n IH]; intros i c Mi Hn.
  - exists [], c, []. split; [reflexivity|]. rewrite Nat.add_0_r. split; [exact Mi|]. split; [reflexivity|].
    split; [intros [|]; discriminate|]. split; [constructor|reflexivity].
  - destruct (send_group c0 dm c i Ok D Mi ltac:(lia)) as (o & c1 & g & E & M1 & V & (O1 & R1)).
    cbn [x_ch_groups]. rewrite E. replace (Z.of_nat i + 1) with (Z.of_nat (S i)) by lia.
    destruct (IH (S i) c1 M1 ltac:(lia)) as (ops & c2 & gs & E2 & M2 & L & N & (O2 & R2)). rewrite E2.
    exists (o ++ ops), c2, (g :: gs). split; [reflexivity|].
    replace (i + S n)%nat with (S i + n)%nat by lia. split; [exact M2|]. split; [cbn [length]; lia|]. split.
    + intros [|k] g'; cbn [nth_error]; intros K.
      * injection K as <-. rewrite Nat.add_0_r. exact V.
      * replace (i + S k)%nat with (S i + k)%nat by lia. apply N, K.
    + split; [apply Forall_app; auto|]. intros r. cbn [many].
      rewrite obits_app, <- app_assoc, runA_bind, R1, runA_bind, R2. reflexivity.
Qed.

Lemma send_channels c dm mem : ch_ok c -> dmx_for c dm -> are_bytes mem -> (0 < length mem)%nat ->
  exists d n c' gs, ch_store c mem = Done (d, n, c') /\ length d = length mem /\
    length gs = Z.to_nat (q_gch (c_sig c)) /\
    (forall i g, nth_error gs i = Some g -> ch_view c dm i g) /\
    (n <= Z.of_nat (length mem) -> reads p_gca d (mkFc 16 0 0, gs)) /\
    exists ls, c' = s_c_lay c ls /\ length ls = length (q_lay (c_sig c)) /\
      forall i l, nth_error (q_lay (c_sig c)) i = Some l -> nth_error ls i = Some (lay_after c i l).
Proof.
  intros Ok D B L.
  destruct (send_groups c dm Ok D (Z.to_nat (q_gch (c_sig c))) 0 c) as (ops & c' & gs & E & M & Lg & N & (O & R)).
  { exists (q_lay (c_sig c)). split; [destruct c as [[] ]; reflexivity|]. split; [reflexivity|]. auto. }
  { reflexivity. }
  unfold ch_store, x_ch_meta. cbn [Z.of_nat] in E. rewrite E. change (Z.shiftr 1024 6) with 16.
  destruct Ok as (Q & _).
  destruct (store_reads (WB 16 6 :: WB 0 2 :: WB (q_gch (c_sig c)) 9 :: ops) mem p_gca (mkFc 16 0 0, gs))
    as (d & n & E2 & _ & Ld & Rd); [|exact B|exact L|].
  { split; [do 3 (constructor; [cbn [op_ok]; lia|]); exact O|].
    intros r. unfold p_gca, p_frame. rewrite bind_assoc, rdW by (cbn; lia).
    rewrite bind_assoc, rdW by (cbn; lia). cbn [Z.eqb bind]. rewrite rdW by (cbn; lia).
    rewrite runA_bind, R. reflexivity. }
  rewrite E2. exists d, n, c', gs. repeat split; auto.
  destruct M as (ls & -> & Ll & Mn). exists ls. split; [reflexivity|]. split; [exact Ll|].
  intros i l K. rewrite (Mn i l K). cbn [Nat.add].
  destruct (Nat.ltb_spec i (Z.to_nat (q_gch (c_sig c)))) as [|Ge]; [reflexivity|].
  unfold lay_after. replace (Z.of_nat i <? q_gch (c_sig c)) with false by lia. reflexivity.
Qed.
