(** * Lem_AsiRT: the scene parser inverts the standard's bit layout *)

From Coq Require Import ZArith List Lia Bool.
From Verif Require Import Bits BitBuf Prog Asi Wp Frame Spec_Asi Lem_Asi.
Import ListNotations.
Open Scope Z_scope.

Lemma b2z_range b : 0 <= b2z b < 2 ^ 1.
Proof. destruct b; cbn; lia. Qed.

Lemma z2b_b2z b : z2b (b2z b) = b.
Proof. destruct b; reflexivity. Qed.

Lemma runA_flag {A} b (k : Z -> prog A) rest :
  runA (bind (rd 1) k) (flag b ++ rest) = runA (k (b2z b)) rest.
Proof. unfold flag. apply runA_rdb; [reflexivity|lia|apply b2z_range]. Qed.

Lemma fits_1 n v : fits n v -> 0 <= v < 2 ^ n. Proof. auto. Qed.

Ltac rdf :=
  rewrite <- ?app_assoc;
  first [ rewrite runA_flag
        | lazymatch goal with
          | |- context [runA (bind (rd ?n) ?k) (bits_of ?m ?v ++ ?r)] =>
            rewrite (runA_rdb n m v k r); [|reflexivity|lia|
              first [ assumption
                    | lazymatch goal with |- 0 <= _ < ?p =>
                        let t := eval vm_compute in p in change p with t; lia end ] ]
          end ]; cbv beta.

Lemma read_members_rt : forall ids i (mem : list Z) rest,
  Forall (fits 7) ids -> (i + length ids <= length mem)%nat ->
  runA (forP (length ids) i (fun i m => v <- rd 7 ;; aset m (Z.of_nat i) (s8 v)) mem)
       (concat (map (bits_of 7) ids) ++ rest)
  = Done (firstn i mem ++ ids ++ skipn (i + length ids) mem, rest).
Proof.
  induction ids as [|x ids IH]; intros i mem rest HF HL; cbn [length forP map concat].
  - cbn [runA app]. rewrite Nat.add_0_r, firstn_skipn. reflexivity.
  - inversion HF as [|? ? Hx HF']; subst. rewrite bind_assoc. rdf.
    cbn [length] in HL. rewrite s8_small by exact Hx.
    rewrite runA_aset by lia. rewrite Nat2Z.id. rewrite IH; [|exact HF'|rewrite aset_len; lia].
    rewrite firstn_aset by lia. rewrite <- app_assoc. cbn [app].
    f_equal. f_equal. f_equal. f_equal. f_equal.
    rewrite skipn_app, firstn_length, Nat.min_l by lia.
    rewrite skipn_all2 by (rewrite firstn_length; lia). cbn [app].
    replace (S i + length ids - i)%nat with (S (length ids)) by lia. rewrite skipn_cons.
    rewrite skipn_skipn_add. f_equal. lia.
Qed.

Lemma runA_read_members {A} ids mem (k : list Z -> prog A) rest :
  Forall (fits 7) ids -> (length ids <= length mem)%nat ->
  runA (bind (read_members (Z.of_nat (length ids)) mem) k) (concat (map (bits_of 7) ids) ++ rest)
  = runA (k (ids ++ skipn (length ids) mem)) rest.
Proof.
  intros H1 H2. unfold read_members. rewrite runA_bind, Nat2Z.id, read_members_rt by (auto; lia).
  cbn [firstn app]. reflexivity.
Qed.

Lemma existsb_notin_false (arr : list gdef) id : ~ In id (map g_id arr) ->
  existsb (fun g => g_id g =? id) arr = false.
Proof. apply existsb_false_notin. Qed.

Lemma group_one_rt i (arr : list gdef) g rest :
  valid_group g -> member_count (gr_members g) <= 127 ->
  (i < length arr)%nat -> Forall (fun g => length (g_mem g) = 128%nat) arr ->
  ~ In (gr_id g) (map g_id (firstn i arr)) ->
  exists g1, view_group g1 = g /\ length (g_mem g1) = 128%nat /\
    runA (group_def_one (Z.of_nat i) arr) (enc_group g ++ rest)
    = Done (Ok (firstn i arr ++ g1 :: skipn (S i) arr), rest).
Proof.
  intros (V1 & V2 & V3 & V4 & V5) V6 Hi HM Hn.
  destruct (nth_error_Some_ex arr i Hi) as [g0 Hg0].
  assert (Lm : length (g_mem g0) = 128%nat).
  { apply nth_error_In in Hg0. rewrite Forall_forall in HM. apply HM, Hg0. }
  assert (C : s8 (s8 (member_count (gr_members g) - 1) + 1) = member_count (gr_members g)).
  { rewrite (s8_small (_ - 1)) by lia. rewrite s8_small by lia. lia. }
  unfold group_def_one, enc_group.
  assert (E0 : forall B (k : gdef -> prog B) bs, runA (bind (aget arr (Z.of_nat i)) k) bs = runA (k g0) bs).
  { intros. apply runA_aget; [lia|]. rewrite Nat2Z.id. exact Hg0. }
  rewrite E0. rdf. rewrite Nat2Z.id, existsb_notin_false by exact Hn.
  rdf. rdf.
  set (tail := match gr_members g with Range s _ => _ | Listed l => _ end).
  (* position *)
  assert (P : exists a1 a2 e1 e2 d1 d2, forall B (k : Z -> Z * Z * Z * Z * Z * Z -> prog B) bs,
     runA (bind (rd 1) (fun pos => bind (if pos =? 0
        then Ret (g_minaz g0, g_maxaz g0, g_minel g0, g_maxel g0, g_mindist g0, g_maxdist g0)
        else a1 <- rd 7 ;; a2 <- rd 7 ;; e1 <- rd 5 ;; e2 <- rd 5 ;; d1 <- rd 4 ;; d2 <- rd 4 ;;
          Ret (a1, a2, e1, e2, d1, d2)) (k pos)))
       (enc_opt (fun '(a1, a2, e1, e2, d1, d2) =>
          bits_of 7 a1 ++ bits_of 7 a2 ++ bits_of 5 e1 ++ bits_of 5 e2 ++ bits_of 4 d1 ++ bits_of 4 d2)
          (gr_pos g) ++ bs)
     = runA (k (match gr_pos g with None => 0 | _ => 1 end) (a1, a2, e1, e2, d1, d2)) bs
       /\ (match gr_pos g with None => True | Some x => x = (a1, a2, e1, e2, d1, d2) end)).
  { destruct (gr_pos g) as [[[[[[a1 a2] e1] e2] d1] d2]|].
    - exists a1, a2, e1, e2, d1, d2. intros B k bs. split; [|reflexivity].
      destruct V2 as (? & ? & ? & ? & ? & ?).
      cbn [enc_opt]. rdf. cbn [b2z]. change (1 =? 0) with false. cbv iota.
      rewrite bind_assoc. rdf. rewrite bind_assoc. rdf. rewrite bind_assoc. rdf.
      rewrite bind_assoc. rdf. rewrite bind_assoc. rdf. rewrite bind_assoc. rdf. reflexivity.
    - do 6 eexists. intros B k bs. split; [|exact I].
      cbn [enc_opt]. rdf. cbn [b2z]. change (0 =? 0) with true. cbv iota. cbn [bind]. reflexivity. }
  destruct P as (a1 & a2 & e1 & e2 & d1 & d2 & P).
  match goal with |- exists g1, _ /\ _ /\ runA (bind (rd 1) (fun pos => bind _ (@?k pos))) (_ ++ ?bs) = _ =>
    rewrite (proj1 (P _ k bs)) end.
  assert (P2 := proj2 (P unit (fun _ _ => Ret tt) [])). clear P. cbv beta iota.
  (* gain *)
  assert (G : exists m1 m2, forall B (k : Z -> Z * Z -> prog B) bs,
     runA (bind (rd 1) (fun gain => bind (if gain =? 0 then Ret (g_mingain g0, g_maxgain g0)
        else m1 <- rd 6 ;; m2 <- rd 5 ;; Ret (m1, m2)) (k gain)))
       (enc_opt (fun '(m1, m2) => bits_of 6 m1 ++ bits_of 5 m2) (gr_gain g) ++ bs)
     = runA (k (match gr_gain g with None => 0 | _ => 1 end) (m1, m2)) bs
       /\ (match gr_gain g with None => True | Some x => x = (m1, m2) end)).
  { destruct (gr_gain g) as [[m1 m2]|].
    - exists m1, m2. intros B k bs. split; [|reflexivity]. destruct V3.
      cbn [enc_opt]. rdf. cbn [b2z]. change (1 =? 0) with false. cbv iota.
      rewrite bind_assoc. rdf. rewrite bind_assoc. rdf. reflexivity.
    - do 2 eexists. intros B k bs. split; [|exact I].
      cbn [enc_opt]. rdf. cbn [b2z]. change (0 =? 0) with true. cbv iota. cbn [bind]. reflexivity. }
  destruct G as (m1 & m2 & G).
  match goal with |- exists g1, _ /\ _ /\ runA (bind (rd 1) (fun pos => bind _ (@?k pos))) (_ ++ ?bs) = _ =>
    rewrite (proj1 (G _ k bs)) end.
  assert (G2 := proj2 (G unit (fun _ _ => Ret tt) [])). clear G. cbv beta iota.
  rdf. rewrite C.
  assert (SETR : forall (x : gdef) bs, runA (arr' <- aset arr (Z.of_nat i) x;; Ret (Ok arr')) bs
     = Done (Ok (firstn i arr ++ x :: skipn (S i) arr), bs)).
  { intros x bs. rewrite runA_aset by lia. rewrite Nat2Z.id. reflexivity. }
  destruct g as [gid go gd gp gg gm]. cbn [gr_members gr_id gr_pos gr_gain gr_onoff gr_default] in *.
  assert (EQ : forall st mem cj, length mem = 128%nat ->
     (if z2b cj then Range st (member_count gm) else Listed (firstn (Z.to_nat (member_count gm)) mem)) = gm ->
     exists g1 : gdef,
     view_group g1 = {| gr_id := gid; gr_onoff := go; gr_default := gd; gr_pos := gp;
                        gr_gain := gg; gr_members := gm |} /\ length (g_mem g1) = 128%nat /\
     (Done (Ok (firstn i arr ++ mkG gid (b2z go) (b2z gd) (match gp with None => 0 | _ => 1 end)
          a1 a2 e1 e2 d1 d2 (match gg with None => 0 | _ => 1 end) m1 m2 (member_count gm) cj st mem
          :: skipn (S i) arr), rest)
      : outcome (res (list gdef) * list bool)) = Done (Ok (firstn i arr ++ g1 :: skipn (S i) arr), rest)).
  { intros st mem cj HL HE. eexists. split; [|split; [|reflexivity]]; [|exact HL].
    unfold view_group. cbn [g_id g_onoff g_def g_pos g_minaz g_maxaz g_minel g_maxel g_mindist
      g_maxdist g_gain g_mingain g_maxgain g_num g_conj g_start g_mem].
    rewrite !z2b_b2z, HE. f_equal.
    - destruct gp as [x|]; [rewrite P2; reflexivity|reflexivity].
    - destruct gg as [x|]; [rewrite G2; reflexivity|reflexivity]. }
  subst tail. destruct gm as [st c|ids]; cbn [member_count] in *.
  - rdf. cbn [b2z]. change (1 =? 0) with false. cbv iota. rewrite bind_assoc. rdf. cbn [bind].
    rewrite SETR. apply EQ; auto.
  - rdf. cbn [b2z]. change (0 =? 0) with true. cbv iota. rewrite bind_assoc.
    rewrite runA_read_members by (auto; lia). cbn [bind]. rewrite SETR. apply EQ.
    + rewrite app_length, skipn_length. lia.
    + change (z2b 0) with false. cbv iota. rewrite Nat2Z.id.
      rewrite firstn_app, Nat.sub_diag, firstn_all. cbn [firstn]. rewrite app_nil_r. reflexivity.
Qed.

(** Generic table loop: each entry decodes independently of the old contents. *)
Lemma table_rt {C X : Type} (body : nat -> list C -> prog (res (list C)))
      (enc : X -> list bool) (id : X -> Z) (cid : C -> Z) (view : C -> X) (good : C -> Prop)
      (okx : nat -> X -> Prop) (N : nat) :
  (forall c, id (view c) = cid c) ->
  (forall i arr x rest, okx i x -> (i < length arr)%nat -> length arr = N -> Forall good arr ->
     ~ In (id x) (map cid (firstn i arr)) ->
     exists c, view c = x /\ good c /\
       runA (body i arr) (enc x ++ rest) = Done (Ok (firstn i arr ++ c :: skipn (S i) arr), rest)) ->
  forall xs i arr rest,
    (i + length xs <= N)%nat -> length arr = N -> Forall good arr ->
    (forall j x, nth_error xs j = Some x -> okx (i + j)%nat x) ->
    NoDup (map cid (firstn i arr) ++ map id xs) ->
    exists arr', runA (forR (length xs) i body arr) (concat (map enc xs) ++ rest) = Done (Ok arr', rest) /\
      length arr' = N /\ Forall good arr' /\
      firstn i arr' = firstn i arr /\
      map view (firstn (i + length xs) arr') = map view (firstn i arr) ++ xs /\
      skipn (i + length xs) arr' = skipn (i + length xs) arr.
Proof.
  intros HID HB. induction xs as [|x xs IH]; intros i arr rest HL HA HG HO HN; cbn [length forR map concat].
  - exists arr. rewrite Nat.add_0_r, app_nil_r. cbn [app]. auto 10.
  - cbn [length] in HL.
    destruct (HB i arr x (concat (map enc xs) ++ rest)) as (c & Ec & Gc & R); auto; try lia.
    { replace i with (i + 0)%nat by lia. apply HO. reflexivity. }
    { cbn [map] in HN. intros HIn. apply NoDup_remove_2 in HN. apply HN, in_app_iff. auto. }
    rewrite <- app_assoc. rewrite runA_bind, R.
    destruct (IH (S i) (firstn i arr ++ c :: skipn (S i) arr) rest) as (arr' & E & L & G & F & V & K); auto; try lia.
    + rewrite aset_len; lia.
    + apply Forall_aset; auto.
    + intros j y Hy. replace (S i + j)%nat with (i + S j)%nat by lia. apply HO. exact Hy.
    + rewrite firstn_aset by lia. rewrite map_app, <- app_assoc. cbn [map app].
      rewrite <- HID, Ec. exact HN.
    + exists arr'. split; [exact E|]. split; [exact L|]. split; [exact G|].
      rewrite firstn_aset in F, V by lia. split.
      * assert (X1 := f_equal (firstn i) F). rewrite firstn_firstn, Nat.min_l in X1 by lia.
        rewrite X1. rewrite firstn_app, firstn_firstn, Nat.min_id, firstn_length, Nat.min_l, Nat.sub_diag by lia.
        cbn [firstn]. apply app_nil_r.
      * replace (i + S (length xs))%nat with (S i + length xs)%nat by lia. split.
        -- rewrite V. rewrite map_app. cbn [map]. rewrite Ec, <- app_assoc. reflexivity.
        -- rewrite K. rewrite <- (skipn_skipn_add (length xs) (S i)), skipn_aset by lia.
           apply skipn_skipn_add.
Qed.

Lemma group_defs_rt gs arr rest :
  (length gs <= 16)%nat -> length arr = 16%nat ->
  Forall (fun g => length (g_mem g) = 128%nat) arr ->
  Forall valid_group gs -> Forall (fun g => member_count (gr_members g) <= 127) gs ->
  NoDup (map gr_id gs) ->
  exists arr', runA (group_defs (length gs) arr) (concat (map enc_group gs) ++ rest) = Done (Ok arr', rest) /\
    length arr' = 16%nat /\ Forall (fun g => length (g_mem g) = 128%nat) arr' /\
    map view_group (firstn (length gs) arr') = gs /\
    skipn (length gs) arr' = skipn (length gs) arr.
Proof.
  intros H1 H2 H3 H4 H5 H6. unfold group_defs.
  destruct (table_rt (fun i a => group_def_one (Z.of_nat i) a) enc_group gr_id g_id view_group
     (fun g => length (g_mem g) = 128%nat)
     (fun _ g => valid_group g /\ member_count (gr_members g) <= 127) 16) with (xs := gs) (i := 0%nat) (arr := arr) (rest := rest)
    as (arr' & E & L & G & _ & V & K); auto.
  - intros i a x r [Va Vb] Hi HA HG HN. apply group_one_rt; auto.
  - intros j x Hx. apply nth_error_In in Hx. rewrite Forall_forall in H4, H5. auto.
  - exists arr'. auto.
Qed.

(** ** Switch groups *)
Lemma switch_one_rt i (arr : list sdef) s rest :
  valid_switch s -> (i < length arr)%nat -> Forall (fun g => length (s_mem g) = 32%nat) arr ->
  ~ In (sg_id s) (map s_id (firstn i arr)) ->
  exists s1, view_switch s1 = s /\ length (s_mem s1) = 32%nat /\
    runA (switch_def_one (Z.of_nat i) arr) (enc_switch s ++ rest)
    = Done (Ok (firstn i arr ++ s1 :: skipn (S i) arr), rest).
Proof.
  intros (V1 & V2 & V3 & V4) Hi HM Hn.
  destruct (nth_error_Some_ex arr i Hi) as [g0 Hg0].
  assert (Lm : length (s_mem g0) = 32%nat).
  { apply nth_error_In in Hg0. rewrite Forall_forall in HM. apply HM, Hg0. }
  unfold switch_def_one, enc_switch.
  assert (E0 : forall B (k : sdef -> prog B) bs, runA (bind (aget arr (Z.of_nat i)) k) bs = runA (k g0) bs).
  { intros. apply runA_aget; [lia|]. rewrite Nat2Z.id. exact Hg0. }
  rewrite E0. rdf. rewrite Nat2Z.id.
  replace (existsb _ _) with false by (symmetry; apply existsb_false_notin; exact Hn).
  assert (P : exists d, forall B (k : Z -> Z -> prog B) bs,
     runA (bind (rd 1) (fun o => bind (if o =? 0 then Ret (s_def g0) else rd 1) (k o)))
       (enc_opt flag (sg_onoff s) ++ bs)
     = runA (k (match sg_onoff s with None => 0 | _ => 1 end) d) bs
       /\ (match sg_onoff s with None => True | Some x => z2b d = x end)).
  { destruct (sg_onoff s) as [b|].
    - exists (b2z b). intros B k bs. split; [|apply z2b_b2z].
      cbn [enc_opt]. rdf. cbn [b2z]. change (1 =? 0) with false. cbv iota. rdf. reflexivity.
    - eexists. intros B k bs. split; [|exact I].
      cbn [enc_opt]. rdf. cbn [b2z]. change (0 =? 0) with true. cbv iota. cbn [bind]. reflexivity. }
  destruct P as (d & P).
  rewrite <- ?app_assoc.
  match goal with |- exists g1, _ /\ _ /\ runA (bind (rd 1) (fun pos => bind _ (@?k pos))) (_ ++ ?bs) = _ =>
    rewrite (proj1 (P _ k bs)) end.
  assert (P2 := proj2 (P unit (fun _ _ => Ret tt) [])). clear P. cbv beta iota.
  rdf. replace (Z.of_nat (length (sg_members s)) - 1 + 1) with (Z.of_nat (length (sg_members s))) by lia.
  rewrite runA_read_members by (auto; lia). rdf.
  rewrite runA_aset by lia. rewrite Nat2Z.id. cbn [runA].
  eexists. split; [|split; [|reflexivity]].
  - unfold view_switch. cbn [s_id s_onoff s_def s_num s_mem s_dgrp]. destruct s as [a b c e].
    cbn [sg_id sg_onoff sg_members sg_default] in *. f_equal.
    + destruct b; [change (z2b 1) with true; cbv iota; rewrite P2|]; reflexivity.
    + rewrite Nat2Z.id, firstn_app, Nat.sub_diag, firstn_all. cbn [firstn]. apply app_nil_r.
  - cbn [s_mem]. rewrite app_length, skipn_length. lia.
Qed.

Lemma switch_defs_rt ss arr rest :
  (length ss <= 8)%nat -> length arr = 8%nat ->
  Forall (fun g => length (s_mem g) = 32%nat) arr ->
  Forall valid_switch ss -> NoDup (map sg_id ss) ->
  exists arr', runA (switch_defs (length ss) arr) (concat (map enc_switch ss) ++ rest) = Done (Ok arr', rest) /\
    length arr' = 8%nat /\ Forall (fun g => length (s_mem g) = 32%nat) arr' /\
    map view_switch (firstn (length ss) arr') = ss.
Proof.
  intros H1 H2 H3 H4 H6. unfold switch_defs.
  destruct (table_rt (fun i a => switch_def_one (Z.of_nat i) a) enc_switch sg_id s_id view_switch
     (fun g => length (s_mem g) = 32%nat)
     (fun _ g => valid_switch g) 8) with (xs := ss) (i := 0%nat) (arr := arr) (rest := rest)
    as (arr' & E & L & G & _ & V & K); auto.
  - intros i a x r Va Hi HA HG HN. apply switch_one_rt; auto.
  - intros j x Hx. apply nth_error_In in Hx. rewrite Forall_forall in H4. auto.
  - exists arr'. auto.
Qed.

(** ** Presets *)
(** What the parser requires of preset number [i]: group number [i] allows what its
    conditions set. *)
Definition allowed_by (g : gdef) (c : condition) : Prop :=
  match co_on c with
  | None => True
  | Some a => (ac_gain a <> None -> z2b (g_gain g) = true) /\ (ac_pos a <> None -> z2b (g_pos g) = true)
  end.

Lemma s8_mod v : 0 <= v < 256 -> s8 v mod 256 = v.
Proof.
  intros H. destruct (Z.lt_ge_cases v 128).
  - rewrite s8_small by lia. apply Z.mod_small. lia.
  - unfold s8, to_s. change (2 ^ 8) with 256. change (2 ^ (8 - 1)) with 128.
    rewrite (Z.mod_small v 256) by lia.
    destruct (Z.ltb_spec v 128); [lia|].
    replace (v - 256) with (v + (-1) * 256) by lia. rewrite Z.mod_add by lia. apply Z.mod_small. lia.
Qed.

Lemma cond_one_rt g i cs c rest :
  valid_cond c -> allowed_by g c -> (i < length cs)%nat ->
  exists c1, view_cond c1 = c /\
    runA (cond_one (g_gain g) (g_pos g) (Z.of_nat i) cs) (enc_cond c ++ rest)
    = Done (Ok (firstn i cs ++ c1 :: skipn (S i) cs), rest).
Proof.
  intros (V1 & V2) HA Hi.
  destruct (nth_error_Some_ex cs i Hi) as [c0 Hc0].
  unfold cond_one, enc_cond.
  assert (E0 : forall B (k : pcond -> prog B) bs, runA (bind (aget cs (Z.of_nat i)) k) bs = runA (k c0) bs).
  { intros. apply runA_aget; [lia|]. rewrite Nat2Z.id. exact Hc0. }
  rewrite E0. rdf.
  assert (SETR : forall (x : pcond) bs, runA (arr' <- aset cs (Z.of_nat i) x;; Ret (Ok arr')) bs
     = Done (Ok (firstn i cs ++ x :: skipn (S i) cs), bs)).
  { intros x bs. rewrite runA_aset by lia. rewrite Nat2Z.id. reflexivity. }
  destruct c as [ref [a|]]; cbn [co_ref co_on] in *; cbn [enc_opt].
  2:{ rdf. cbn [b2z]. change (0 =? 0) with true. cbv iota. rewrite SETR.
      eexists. split; [|reflexivity]. reflexivity. }
  rdf. cbn [b2z]. change (1 =? 0) with false. cbv iota.
  destruct a as [lg ga lp po]. unfold allowed_by in HA. unfold enc_action. cbn [ac_lock_gain ac_gain ac_lock_pos ac_pos co_on] in *.
  destruct HA as [HA1 HA2]. destruct V2 as [V2 V3].
  rdf.
  destruct ga as [gv|]; cbn [enc_opt].
  - rdf. cbn [b2z]. change (1 =? 0) with false. cbv iota. rewrite bind_assoc. rdf. cbn [bind].
    assert (GG : (g_gain g =? 0) = false).
    { specialize (HA1 ltac:(discriminate)). unfold z2b in HA1. destruct (g_gain g =? 0); [discriminate HA1|reflexivity]. }
    rewrite GG. cbn [andb]. cbv iota. rdf.
    assert (UG : u8 (s8 gv) = gv).
    { unfold u8, to_u. change (2 ^ 8) with 256. apply s8_mod. exact V2. }
    destruct po as [[[az el] di]|]; cbn [enc_opt].
    + destruct V3 as (? & ? & ?). rdf. cbn [b2z]. change (1 =? 0) with false. cbv iota.
      rewrite bind_assoc. rdf. rewrite bind_assoc. rdf. rewrite bind_assoc. rdf. cbn [bind]. cbv iota beta.
      assert (PG : (g_pos g =? 0) = false).
      { specialize (HA2 ltac:(discriminate)). unfold z2b in HA2. destruct (g_pos g =? 0); [discriminate HA2|reflexivity]. }
      rewrite PG. cbn [andb]. cbv iota. rewrite SETR. eexists. split; [|reflexivity].
      unfold view_cond. cbn [c_ref c_on c_disgain c_gainflag c_gain c_dispos c_posflag c_az c_el c_dist].
      change (z2b 1) with true. cbv iota. rewrite !z2b_b2z, UG, s8_mod by assumption. reflexivity.
    + rdf. cbn [b2z]. change (0 =? 0) with true. cbn [negb]. cbv iota. cbn [bind]. cbv beta iota. rewrite andb_false_r. cbv iota.
      rewrite SETR. eexists. split; [|reflexivity].
      unfold view_cond. cbn [c_ref c_on c_disgain c_gainflag c_gain c_dispos c_posflag c_az c_el c_dist].
      change (z2b 1) with true. change (z2b 0) with false. cbv iota. rewrite !z2b_b2z, UG. reflexivity.
  - rdf. cbn [b2z]. change (0 =? 0) with true. cbn [negb]. cbv iota. cbn [bind]. cbv beta iota. rewrite andb_false_r. cbv iota.
    rdf.
    destruct po as [[[az el] di]|]; cbn [enc_opt].
    + destruct V3 as (? & ? & ?). rdf. cbn [b2z]. change (1 =? 0) with false. cbv iota.
      rewrite bind_assoc. rdf. rewrite bind_assoc. rdf. rewrite bind_assoc. rdf. cbn [bind]. cbv iota beta.
      assert (PG : (g_pos g =? 0) = false).
      { specialize (HA2 ltac:(discriminate)). unfold z2b in HA2. destruct (g_pos g =? 0); [discriminate HA2|reflexivity]. }
      rewrite PG. cbn [andb]. cbv iota. rewrite SETR. eexists. split; [|reflexivity].
      unfold view_cond. cbn [c_ref c_on c_disgain c_gainflag c_gain c_dispos c_posflag c_az c_el c_dist].
      change (z2b 1) with true. change (z2b 0) with false. cbv iota. rewrite !z2b_b2z, s8_mod by assumption. reflexivity.
    + rdf. cbn [b2z]. change (0 =? 0) with true. cbn [negb]. cbv iota. cbn [bind]. cbv beta iota. rewrite andb_false_r. cbv iota.
      rewrite SETR. eexists. split; [|reflexivity].
      unfold view_cond. cbn [c_ref c_on c_disgain c_gainflag c_gain c_dispos c_posflag c_az c_el c_dist].
      change (z2b 1) with true. change (z2b 0) with false. cbv iota. rewrite !z2b_b2z. reflexivity.
Qed.

Lemma conds_rt g : forall xs i cs rest,
  Forall valid_cond xs -> Forall (allowed_by g) xs -> (i + length xs <= length cs)%nat ->
  exists cs', runA (forR (length xs) i (fun i cs => cond_one (g_gain g) (g_pos g) (Z.of_nat i) cs) cs)
        (concat (map enc_cond xs) ++ rest) = Done (Ok cs', rest) /\
     length cs' = length cs /\ firstn i cs' = firstn i cs /\
     map view_cond (firstn (i + length xs) cs') = map view_cond (firstn i cs) ++ xs.
Proof.
  induction xs as [|x xs IH]; intros i cs rest HV HA HL; cbn [length forR map concat].
  - exists cs. rewrite Nat.add_0_r, app_nil_r. cbn [app]. auto.
  - inversion HV; subst. inversion HA; subst. cbn [length] in HL.
    destruct (cond_one_rt g i cs x (concat (map enc_cond xs) ++ rest)) as (c & Ec & R); [assumption|assumption|lia|].
    rewrite <- app_assoc, runA_bind, R.
    destruct (IH (S i) (firstn i cs ++ c :: skipn (S i) cs) rest) as (cs' & E & L & F & V); auto.
    { rewrite aset_len; lia. }
    rewrite aset_len in L by lia. rewrite firstn_aset in F, V by lia.
    exists cs'. split; [exact E|]. split; [lia|]. split.
    + assert (X1 := f_equal (firstn i) F). rewrite firstn_firstn, Nat.min_l in X1 by lia.
      rewrite X1. rewrite firstn_app, firstn_firstn, Nat.min_id, firstn_length, Nat.min_l, Nat.sub_diag by lia.
      cbn [firstn]. apply app_nil_r.
    + replace (i + S (length xs))%nat with (S i + length xs)%nat by lia. rewrite V.
      rewrite map_app. cbn [map]. rewrite Ec, <- app_assoc. reflexivity.
Qed.

Lemma preset_one_rt gs g i (arr : list pdef) p rest :
  nth_error gs i = Some g -> valid_preset p -> Forall (allowed_by g) (pr_conds p) ->
  (i < length arr)%nat -> Forall (fun p => length (p_conds p) = 16%nat) arr ->
  ~ In (pr_id p) (map p_id (firstn i arr)) ->
  exists p1, view_preset p1 = p /\ length (p_conds p1) = 16%nat /\
    runA (preset_def_one gs (Z.of_nat i) arr) (enc_preset p ++ rest)
    = Done (Ok (firstn i arr ++ p1 :: skipn (S i) arr), rest).
Proof.
  intros Hg (V1 & V2 & V3 & V4) HA Hi HM Hn.
  destruct (nth_error_Some_ex arr i Hi) as [g0 Hg0].
  assert (Lm : length (p_conds g0) = 16%nat).
  { apply nth_error_In in Hg0. rewrite Forall_forall in HM. apply HM, Hg0. }
  unfold preset_def_one, enc_preset.
  assert (E0 : forall B (k : pdef -> prog B) bs, runA (bind (aget arr (Z.of_nat i)) k) bs = runA (k g0) bs).
  { intros. apply runA_aget; [lia|]. rewrite Nat2Z.id. exact Hg0. }
  assert (E1 : forall B (k : gdef -> prog B) bs, runA (bind (aget gs (Z.of_nat i)) k) bs = runA (k g) bs).
  { intros. apply runA_aget; [lia|]. rewrite Nat2Z.id. exact Hg. }
  rewrite E0. rdf. rewrite Nat2Z.id.
  replace (existsb _ _) with false by (symmetry; apply existsb_false_notin; exact Hn).
  rdf. rdf. cbv zeta. rewrite <- ?app_assoc.
  replace (Z.of_nat (length (pr_conds p)) - 1 + 1) with (Z.of_nat (length (pr_conds p))) by lia.
  destruct (Z.ltb_spec 16 (Z.of_nat (length (pr_conds p)))); [lia|].
  rewrite E1. rewrite Nat2Z.id.
  destruct (conds_rt g (pr_conds p) 0 (p_conds g0) rest) as (cs' & E & L & _ & V); [assumption|assumption|lia|].
  rewrite runA_bind, E. rewrite runA_aset by lia. rewrite Nat2Z.id. cbn [runA].
  eexists. split; [|split; [|reflexivity]].
  - unfold view_preset. cbn [p_id p_kind p_num p_conds]. rewrite Nat2Z.id.
    cbn [Nat.add firstn map app] in V. rewrite V. destruct p; reflexivity.
  - cbn [p_conds]. lia.
Qed.

Lemma preset_defs_rt gs ps arr rest :
  length gs = 16%nat -> (length ps <= 8)%nat -> length arr = 8%nat ->
  Forall (fun p => length (p_conds p) = 16%nat) arr ->
  Forall valid_preset ps -> NoDup (map pr_id ps) ->
  (forall i p g, nth_error ps i = Some p -> nth_error gs i = Some g -> Forall (allowed_by g) (pr_conds p)) ->
  exists arr', runA (preset_defs gs (length ps) arr) (concat (map enc_preset ps) ++ rest) = Done (Ok arr', rest) /\
    length arr' = 8%nat /\ Forall (fun p => length (p_conds p) = 16%nat) arr' /\
    map view_preset (firstn (length ps) arr') = ps.
Proof.
  intros HG H1 H2 H3 H4 H6 HA. unfold preset_defs.
  destruct (table_rt (fun i a => preset_def_one gs (Z.of_nat i) a) enc_preset pr_id p_id view_preset
     (fun g => length (p_conds g) = 16%nat)
     (fun i p => valid_preset p /\ forall g, nth_error gs i = Some g -> Forall (allowed_by g) (pr_conds p)) 8) with (xs := ps) (i := 0%nat) (arr := arr) (rest := rest)
    as (arr' & E & L & G & _ & V & K); auto.
  - intros i a x r [Va Vb] Hi HA' HG' HN. destruct (nth_error_Some_ex gs i) as [g Hg]; [lia|].
    apply (preset_one_rt gs g); auto.
  - intros j x Hx. split.
    + apply nth_error_In in Hx. rewrite Forall_forall in H4. auto.
    + intros g Hg. cbn in Hg. eapply HA; eauto.
  - exists arr'. auto.
Qed.

(** ** Blocks and the whole scene *)
Lemma runA_framed {A} len (p : prog (res A)) l a pre post pad :
  l = pre ++ pad ++ post ->
  runA p l = Done (Ok a, pad ++ post) ->
  Z.of_nat (length pre + length pad) = len * 8 ->
  runA (framed len p) l = Done (Ok a, post).
Proof.
  intros -> H HL. unfold framed, avail. cbn [bind runA]. rewrite runA_bind, H.
  cbn [bind runA]. rewrite !app_length.
  set (used := Z.of_nat (length pre + (length pad + length post)) - Z.of_nat (length pad + length post)).
  assert (U : used = Z.of_nat (length pre)) by (unfold used; lia).
  destruct (Z.ltb_spec used (len * 8)).
  - unfold skip. cbn [bind]. replace (len * 8 - used) with (Z.of_nat (length pad)) by lia.
    rewrite runA_skip. reflexivity.
  - assert (length pad = 0%nat) by lia. destruct pad; [|discriminate]. reflexivity.
Qed.

Lemma s16_small v : 0 <= v < 32768 -> s16 v = v.
Proof. intros. unfold s16. apply to_s_id; cbn; lia. Qed.

Lemma read_bytes_unit : forall bs i rest,
  Forall (fits 8) bs ->
  runA (forP (length bs) i (fun _ _ => rd 8 ;;; Ret tt) tt) (concat (map (bits_of 8) bs) ++ rest)
  = Done (tt, rest).
Proof.
  induction bs as [|b bs IH]; intros i rest H; [reflexivity|].
  inversion H; subst. cbn [length forP map concat]. rewrite bind_assoc. rdf. cbn [bind].
  apply IH; auto.
Qed.

Lemma bytes_len bs : length (concat (map (bits_of 8) bs)) = (8 * length bs)%nat.
Proof.
  induction bs as [|b bs IH]; cbn [map concat length]; [reflexivity|].
  rewrite app_length, bits_of_length, IH. lia.
Qed.

Lemma framed_exact {A} len (p : prog (res A)) l a l' :
  runA p l = Done (Ok a, l') -> len * 8 <= Z.of_nat (length l) - Z.of_nat (length l') ->
  runA (framed len p) l = Done (Ok a, l').
Proof.
  intros H HL. unfold framed, avail. cbn [bind runA]. rewrite runA_bind, H. cbn [bind runA].
  destruct (Z.ltb_spec (Z.of_nat (length l) - Z.of_nat (length l')) (len * 8)); [lia|]. reflexivity.
Qed.

Lemma asi_data_rt gs ngrp npre nc0 blks rest :
  (length blks <= 15)%nat -> Forall valid_block blks ->
  runA (asi_data gs ngrp npre nc0)
       (bits_of 4 (Z.of_nat (length blks)) ++ concat (map enc_block blks) ++ rest)
  = Done (Ok (map fst blks), rest).
Proof.
  intros HL HF. unfold asi_data. rdf. rewrite Nat2Z.id.
  enough (K : forall bs i seen, (i + length bs <= 15)%nat -> Forall valid_block bs ->
    runA (forR (length bs) i (fun i seen =>
      chk (Z.of_nat i) 15 ;;;
      ty <- rd 4 ;;
      len <- rd 16 ;;
      r <- framed (s16 len) (data_block gs ngrp npre nc0 seen ty len) ;;
      match r with Er e => Ret (Er e) | Ok _ => Ret (Ok (seen ++ [ty])) end) seen)
      (concat (map enc_block bs) ++ rest) = Done (Ok (seen ++ map fst bs), rest)).
  { rewrite K by (auto; lia). reflexivity. }
  clear HL HF. induction bs as [|[ty pl] bs IH]; intros i seen HL HF; cbn [length forR map concat].
  - rewrite app_nil_r. reflexivity.
  - inversion HF as [|? ? (V1 & V2 & V3) HF']; subst. cbn [fst snd] in *. cbn [length] in HL.
    unfold enc_block at 1. cbn [fst snd]. rewrite bind_assoc. rewrite runA_chk by lia.
    rewrite bind_assoc. rdf. rewrite bind_assoc. rdf. rewrite bind_assoc.
    rewrite runA_bind.
    assert (DB : runA (data_block gs ngrp npre nc0 seen ty (Z.of_nat (length pl)))
       (concat (map (bits_of 8) pl) ++ concat (map enc_block bs) ++ rest)
       = Done (Ok tt, concat (map enc_block bs) ++ rest)).
    { unfold data_block.
      destruct (Z.eqb_spec ty 9); [lia|]. destruct (Z.eqb_spec ty 8); [lia|].
      destruct (Z.eqb_spec ty 7); [lia|]. destruct (Z.eqb_spec ty 6); [lia|].
      destruct (Z.eqb_spec ty 5); [lia|]. destruct (Z.eqb_spec ty 4); [lia|].
      destruct (Z.eqb_spec ty 3); [lia|]. destruct (Z.eqb_spec ty 2); [lia|].
      destruct (Z.eqb_spec ty 1); [lia|]. destruct (Z.eqb_spec ty 0); [lia|].
      rewrite runA_bind, Nat2Z.id, read_bytes_unit by exact V3. reflexivity. }
    rewrite <- ?app_assoc. rewrite (framed_exact _ _ _ _ _ DB).
    + cbn [bind]. rewrite IH by (auto; lia). rewrite <- app_assoc. reflexivity.
    + rewrite !app_length, bytes_len. unfold s16, to_s.
      change (2 ^ 16) with 65536. change (2 ^ (16 - 1)) with 32768.
      rewrite Z.mod_small by lia. destruct (_ <? 32768); lia.
Qed.

(** [allowed_by] in terms of the scene's own groups: preset [i] is checked against the
    [i]-th group; where there is no such group, against what the table held before. *)
Definition preset_checks (s : scene) (old : list gdef) : Prop :=
  forall i p, nth_error (sc_presets s) i = Some p ->
    match nth_error (sc_groups s) i with
    | Some g => Forall (fun c => match co_on c with None => True | Some a =>
         (ac_gain a <> None -> gr_gain g <> None) /\ (ac_pos a <> None -> gr_pos g <> None) end) (pr_conds p)
    | None => forall g, nth_error old i = Some g -> Forall (allowed_by g) (pr_conds p)
    end.

Lemma view_group_gain g : gr_gain (view_group g) <> None -> z2b (g_gain g) = true.
Proof. unfold view_group. cbn [gr_gain]. destruct (z2b (g_gain g)); auto. Qed.
Lemma view_group_pos g : gr_pos (view_group g) <> None -> z2b (g_pos g) = true.
Proof. unfold view_group. cbn [gr_pos]. destruct (z2b (g_pos g)); auto. Qed.

Lemma nth_firstn_lt {A} (l : list A) i n : (i < n)%nat -> nth_error (firstn n l) i = nth_error l i.
Proof.
  revert l i; induction n as [|n IH]; intros l i H; [lia|].
  destruct l as [|a l]; [destruct i; reflexivity|]. destruct i; [reflexivity|]. cbn. apply IH. lia.
Qed.

Lemma nth_skipn {A} (l : list A) n i : nth_error (skipn n l) i = nth_error l (n + i)%nat.
Proof.
  revert l; induction n as [|n IH]; intros l; [reflexivity|].
  destruct l; [cbn; destruct i; reflexivity|]. cbn. apply IH.
Qed.

Lemma asi_parse_rt a s rest :
  shape a -> valid_scene s ->
  Forall (fun g => member_count (gr_members g) <= 127) (sc_groups s) ->
  preset_checks s (a_groups a) ->
  exists a', runA (asi_parse a) (enc_scene s ++ rest) = Done (Ok a', rest) /\ shape a' /\
    a_main a' = 1 /\ z2b (a_idp a') = (match sc_id s with None => false | _ => true end) /\
    (forall i, sc_id s = Some i -> a_id a' = i) /\
    map view_group (active_groups a') = sc_groups s /\
    map view_switch (active_switch a') = sc_switch s /\
    map view_preset (active_presets a') = sc_presets s /\
    a_types a' = map fst (sc_blocks s) /\ a_max a' = sc_max s /\ a_offset a' = 0.
Proof.
  intros (G1 & G2 & S1 & S2 & P1 & P2) (V0 & Vg1 & Vg2 & Vg3 & Vs1 & Vs2 & Vs3 & Vp1 & Vp2 & Vp3 & Vb1 & Vb2 & Vm) H127 HP.
  unfold asi_parse, enc_scene. rdf. cbn [b2z]. change (1 =? 0) with false. cbv iota.
  destruct (group_defs_rt (sc_groups s) (a_groups a)
    (bits_of 5 (Z.of_nat (length (sc_switch s))) ++ concat (map enc_switch (sc_switch s)) ++
  bits_of 5 (Z.of_nat (length (sc_presets s))) ++ concat (map enc_preset (sc_presets s)) ++
  bits_of 4 (Z.of_nat (length (sc_blocks s))) ++ concat (map enc_block (sc_blocks s)) ++
  bits_of 7 (sc_max s) ++ rest)) as (gs & EG & LG & MG & WG & KG); auto.
  destruct (switch_defs_rt (sc_switch s) (a_switch a)
  (bits_of 5 (Z.of_nat (length (sc_presets s))) ++ concat (map enc_preset (sc_presets s)) ++
  bits_of 4 (Z.of_nat (length (sc_blocks s))) ++ concat (map enc_block (sc_blocks s)) ++
  bits_of 7 (sc_max s) ++ rest)) as (ss & ES & LS & MS & WS); auto.
  destruct (preset_defs_rt gs (sc_presets s) (a_presets a)
  (bits_of 4 (Z.of_nat (length (sc_blocks s))) ++ concat (map enc_block (sc_blocks s)) ++
  bits_of 7 (sc_max s) ++ rest)) as (ps & EP & LP & MP & WP); auto.
  { intros i p g Hp Hg. specialize (HP i p Hp).
    destruct (nth_error (sc_groups s) i) as [g'|] eqn:Eg'.
    - assert (Lt : (i < length (sc_groups s))%nat) by (apply nth_error_Some; congruence).
      rewrite <- WG in Eg'. rewrite nth_error_map in Eg'. rewrite nth_firstn_lt in Eg' by lia.
      rewrite Hg in Eg'. cbn in Eg'. inversion Eg'; subst g'.
      eapply Forall_impl; [|exact HP]. intros c. unfold allowed_by. destruct (co_on c); auto.
      intros [H1 H2]. split; intros H.
      + apply view_group_gain; auto.
      + apply view_group_pos; auto.
    - apply HP. apply nth_error_None in Eg'.
      replace i with (length (sc_groups s) + (i - length (sc_groups s)))%nat by lia.
      rewrite <- nth_skipn, <- KG, nth_skipn.
      replace (length (sc_groups s) + (i - length (sc_groups s)))%nat with i by lia. exact Hg. }
  destruct (nth_error_Some_ex ps 0) as [p0 Hp0]; [lia|].
  assert (FIN : forall idp id, exists a', runA (
    ng <- rd 7;;
   (if 16 <? ng then Ret (Er E_NUM_GROUP) else
    r1 <- group_defs (Z.to_nat ng) (a_groups a) ;;
    match r1 with
    | Er e => Ret (Er e)
    | Ok gs =>
      ns <- rd 5 ;;
      if 8 <? ns then Ret (Er E_NUM_SWITCH_GROUPS) else
      r2 <- switch_defs (Z.to_nat ns) (a_switch a) ;;
      match r2 with
      | Er e => Ret (Er e)
      | Ok ss =>
        np <- rd 5 ;;
        if 8 <? np then Ret (Er E_NUM_PRESETS) else
        r3 <- preset_defs gs (Z.to_nat np) (a_presets a) ;;
        match r3 with
        | Er e => Ret (Er e)
        | Ok ps =>
          p0 <- aget ps 0 ;;
          r4 <- asi_data gs (Z.to_nat ng) (Z.to_nat np) (p_num p0) ;;
          match r4 with
          | Er e => Ret (Er e)
          | Ok tys =>
            m <- rd 7 ;;
            Ret (Ok (mkA 1 idp id ng gs ns ss np ps tys 0 m))
          end
        end
      end
    end)) (bits_of 7 (Z.of_nat (length (sc_groups s))) ++ concat (map enc_group (sc_groups s)) ++
  bits_of 5 (Z.of_nat (length (sc_switch s))) ++ concat (map enc_switch (sc_switch s)) ++
  bits_of 5 (Z.of_nat (length (sc_presets s))) ++ concat (map enc_preset (sc_presets s)) ++
  bits_of 4 (Z.of_nat (length (sc_blocks s))) ++ concat (map enc_block (sc_blocks s)) ++
  bits_of 7 (sc_max s) ++ rest) = Done (Ok a', rest) /\ shape a' /\
    a_main a' = 1 /\ a_idp a' = idp /\ a_id a' = id /\
    map view_group (active_groups a') = sc_groups s /\
    map view_switch (active_switch a') = sc_switch s /\
    map view_preset (active_presets a') = sc_presets s /\
    a_types a' = map fst (sc_blocks s) /\ a_max a' = sc_max s /\ a_offset a' = 0).
  { intros idp id. rdf. destruct (Z.ltb_spec 16 (Z.of_nat (length (sc_groups s)))); [lia|].
    rewrite (Nat2Z.id (length (sc_groups s))).
    rewrite runA_bind, EG. rdf.
    destruct (Z.ltb_spec 8 (Z.of_nat (length (sc_switch s)))); [lia|].
    rewrite (Nat2Z.id (length (sc_switch s))).
    rewrite runA_bind, ES. rdf.
    destruct (Z.ltb_spec 8 (Z.of_nat (length (sc_presets s)))); [lia|].
    rewrite (Nat2Z.id (length (sc_presets s))).
    rewrite runA_bind, EP.
    rewrite (runA_aget ps 0 p0) by (auto; lia).
    rewrite runA_bind, asi_data_rt by auto. rdf. cbn [runA].
    eexists. split; [reflexivity|].
    unfold shape, active_groups, active_switch, active_presets.
    cbn [a_main a_idp a_id a_ng a_groups a_ns a_switch a_np a_presets a_types a_offset a_max].
    rewrite !Nat2Z.id. repeat split; auto. }
  destruct (sc_id s) as [i|]; cbn [enc_opt].
  - rdf. cbn [b2z]. change (1 =? 0) with false. cbv iota. rewrite <- ?app_assoc. rdf.
    destruct (FIN 1 i) as (a' & E & H1 & H2 & H3 & H4 & H5). exists a'.
    split; [exact E|]. rewrite H3. repeat split; auto; try apply H1; try apply H5. intros j Hj. congruence.
  - rdf. cbn [b2z]. change (0 =? 0) with true. cbv iota. cbn [bind]. rewrite <- ?app_assoc.
    destruct (FIN 0 (a_id a)) as (a' & E & H1 & H2 & H3 & H4 & H5). exists a'.
    split; [exact E|]. rewrite H3. repeat split; auto; try apply H1; try apply H5. intros j Hj. congruence.
Qed.

(** ** On the concrete reader *)
Lemma asi_parse_exec_rt a s d rest :
  are_bytes d -> bytes_bits d = enc_scene s ++ rest ->
  shape a -> valid_scene s ->
  Forall (fun g => member_count (gr_members g) <= 127) (sc_groups s) ->
  preset_checks s (a_groups a) ->
  exists a' s', exec (asi_parse a) (fresh d) = Done (Ok a', s') /\
    bitpos s' = Z.of_nat (length (enc_scene s)) /\
    a_main a' = 1 /\ z2b (a_idp a') = (match sc_id s with None => false | _ => true end) /\
    (forall i, sc_id s = Some i -> a_id a' = i) /\
    map view_group (active_groups a') = sc_groups s /\
    map view_switch (active_switch a') = sc_switch s /\
    map view_preset (active_presets a') = sc_presets s /\
    a_types a' = map fst (sc_blocks s) /\ a_max a' = sc_max s.
Proof.
  intros Hd HB Sh V H127 HP.
  destruct (asi_parse_rt a s rest Sh V H127 HP) as (a' & E & _ & H).
  destruct (exec_of_runA (asi_parse a) d (Ok a') (enc_scene s) rest _ Hd (wp_asi_parse a Sh) HB E)
    as (s' & E' & _ & B & _).
  exists a', s'. split; [exact E'|]. split; [exact B|]. tauto.
Qed.

