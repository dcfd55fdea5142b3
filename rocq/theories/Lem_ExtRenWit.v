(** * Lem_ExtRenWit: example states for the external renderer metadata, and where it is wrong *)

From Coq Require Import ZArith List Lia Bool ZifyBool.
From Verif Require Import Bits BitBuf BitWrite Prog Wp F32 Pcm Config Hoa Oam
  Spec_Config Spec_ConfigFull ExtRen Spec_ExtRen Lem_ExtRen Lem_ExtRenCh Lem_ExtRenOb Lem_ExtRenHo Lem_ExtRenTot.
Import ListNotations.
Open Scope Z_scope.

Definition nopm : prodmd := mkPm 0 0 0 0 [] [] [].
Definition lidx (i : Z) : layout := mkLay 0 i 0 [] 0 [].
Definition llist (l : list Z) : layout := mkLay 1 0 (Z.of_nat (length l)) l 0 [].
Definition sg (ty n : list Z) (lay : list layout) (prio fixed : list Z) (gch gobj gho : Z) : sigs :=
  mkSig (Z.of_nat (length ty)) ty n (map (fun _ => 0) ty) lay prio fixed 0 0 0 0 gch gobj gho 0.

(** ** Channels *)

(** A stereo downmix with one matrix of 11 bits. *)
Definition dm_ex : dmat :=
  mkDM 5 1 2 1 (2 :: repeat 0 7) ((0 :: 1 :: repeat 0 14) :: repeat (repeat 0 16) 7)
    (11 :: repeat 0 7) ((165 :: 96 :: repeat 0 2) :: repeat (repeat 0 4) 7).
Definition dx_ex : dmxc := mkDx 5 1 0 0 0 1 [dm_ex].
Definition ch_ex : chst :=
  mkCh (sg [0; 0; 1] [2; 3; 4] [lidx 2; llist [0; 1; 2]; lidx 0] [1; 5; 0] [0; 1; 0] 2 1 0)
    [0; 0; 0] 1 dx_ex nopm 2.
Definition mt_ex : mtx := mkMtx [0; 1] (firstn 11 (bytes_bits [165; 96])).
Definition gd_ex : gdmx := mkGd None [mkDent 5 2 (Some [mt_ex])].

Lemma ch_ex_ok : ch_ok ch_ex /\ dmx_for ch_ex (Some gd_ex).
Proof.
  split.
  - split; [cbn; lia|]. split; [cbn; lia|]. intros i Hi. change (Z.to_nat (q_gch (c_sig ch_ex))) with 2%nat in Hi.
    assert (C : i = 0%nat \/ i = 1%nat) by lia. destruct C as [-> | ->]; cbn.
    + exists 2, (lidx 2), 0, 1, 0. repeat split; auto; try lia. left. cbn. lia.
    + exists 3, (llist [0; 1; 2]), 1, 5, 0. repeat split; auto; try lia. right. cbn. repeat split; try lia.
      repeat constructor; lia.
  - split; [reflexivity|]. split; [reflexivity|]. split; [reflexivity|]. split.
    { intros [|[|i]] e K; try discriminate.
      injection K as <-. exists dm_ex. split; [reflexivity|]. split; [reflexivity|]. split; [reflexivity|].
      cbn [e_mtx]. split; [reflexivity|]. split; [reflexivity|]. intros [|[|j]] t K; try discriminate.
      injection K as <-. split; [reflexivity|]. split; [eexists; split; reflexivity|].
      split; [reflexivity|]. eexists; split; reflexivity. }
    split; [|split; [|split; [cbn; lia|]]].
    + constructor; [|constructor]. split; [cbn; lia|]. split; [cbn; lia|]. cbn. split; [lia|].
      constructor; [|constructor]. split; [cbn; lia|]. split; [repeat constructor; lia|cbn; lia].
    + constructor; [|constructor]. constructor; [cbn; lia|constructor].
    + constructor; [reflexivity|constructor].
Qed.

(** The same groups with an active downmix only, not passive, phase alignment 5. *)
Definition ch_act : chst :=
  mkCh (c_sig ch_ex) (c_also ch_ex) 1 (mkDx 0 0 0 5 1 0 []) nopm 2.
Lemma ch_act_ok : ch_ok ch_act /\ dmx_for ch_act (Some (mkGd (Some (0, Some 5, 1)) [])).
Proof.
  split; [exact (proj1 ch_ex_ok)|]. split; [reflexivity|]. split.
  { split; [right; split; reflexivity|]. split; [left; reflexivity|]. split; [right; reflexivity|]. repeat split; lia. }
  split; [intros [H|H]; [contradiction H; reflexivity|contradiction H; reflexivity]|].
  split; [intros [|i] e K; discriminate K|]. repeat split; try constructor; cbn; lia.
Qed.

(** What the renderer reads for it. *)
Lemma ch_ex_read : exists d n c', ch_store ch_ex (repeat 255 40) = Done (d, n, c') /\ n <= 40 /\
  reads p_gca d (mkFc 16 0 0,
    [mkGg 2 (GIndex 2) [0; 0] 0 1 96 (Some gd_ex) [];
     mkGg 3 (GList [0; 1; 2]) [0; 0; 0] 1 5 96 (Some gd_ex) []]).
Proof.
  do 3 eexists. split; [vm_compute; reflexivity|]. split; [vm_compute; discriminate|].
  eexists. vm_compute. reflexivity.
Qed.

(** The objects' group comes first. *)
Definition ch_late : chst :=
  mkCh (sg [1; 0] [3; 2] [lidx 0; lidx 2] [1; 5] [0; 1] 1 1 0) [0; 0] 0 dmxc0 nopm 2.
Lemma object_group_first :
  exists d n c' f g s,
    nth_error (q_type (c_sig ch_late)) 1 = Some 0 /\ nth_error (q_nsig (c_sig ch_late)) 1 = Some 2 /\
    nth_error (q_lay (c_sig ch_late)) 1 = Some (lidx 2) /\ q_gch (c_sig ch_late) = 1 /\
    ch_store ch_late (repeat 0 32) = Done (d, n, c') /\ n <= 32 /\
    exec p_gca (fresh d) = Done ((f, [g]), s) /\ gg_n g = 3 /\ gg_lay g = GIndex 0.
Proof.
  do 6 eexists. do 4 (split; [reflexivity|]). split; [vm_compute; reflexivity|].
  split; [vm_compute; discriminate|]. split; [vm_compute; reflexivity|]. split; reflexivity.
Qed.

(** A list layout, written for the renderer, then the same configuration once more. *)
Definition lay_zero : layout := mkLay 0 0 0 (repeat 0 24) 0 [].
Lemma layout_again :
  exists l s d n c',
    exec (group_layout lay_zero 2 2) (fresh [66; 0; 8]) = Done ((0, l), s) /\
    l_type l = 1 /\ firstn 2 (l_spk l) = [0; 1] /\
    ch_store (mkCh (sg [0] [2] [l] [0] [0] 1 0 0) [0] 0 dmxc0 nopm 2) (repeat 0 32) = Done (d, n, c') /\
    exists l', nth_error (q_lay (c_sig c')) 0 = Some l' /\
      exec (group_layout l' 2 2) (fresh [66; 0; 8]) = UB UOob.
Proof.
  do 5 eexists. split; [vm_compute; reflexivity|]. split; [reflexivity|]. split; [reflexivity|].
  split; [vm_compute; reflexivity|]. eexists. split; [reflexivity|]. vm_compute. reflexivity.
Qed.

(** A flexible layout with one loudspeaker at 90 degrees, as the library itself reads it from
    the stream and from what is written for the renderer. *)
Definition lay_flex0 : layout := mkLay 0 0 0 [] 0 (repeat (mkFx 0 0 0 0 0 0 0 0) 2).
Lemma flexible_layout :
  exists l s also ops l2 d n l3 s3 f f3,
    exec (group_layout lay_flex0 1 1) (fresh [128; 9; 0]) = Done ((0, l), s) /\
    x_spk3d l also = Done (ops, l2) /\ x_store ops (repeat 0 8) = Done (d, n) /\
    exec (group_layout lay_flex0 1 1) (fresh d) = Done ((0, l3), s3) /\
    nth_error (l_flex l) 0 = Some f /\ nth_error (l_flex l3) 0 = Some f3 /\
    f_az f = 90 /\ f_az f3 <> 90.
Proof.
  exists (mkLay 2 0 1 [] 0 [mkFx 0 0 0 0 0 90 0 0; mkFx 0 0 0 0 0 0 0 0]).
  eexists. exists 0. do 8 eexists. split; [vm_compute; reflexivity|]. split; [vm_compute; reflexivity|].
  split; [vm_compute; reflexivity|]. split; [vm_compute; reflexivity|].
  split; [reflexivity|]. split; [reflexivity|]. split; [reflexivity|]. discriminate.
Qed.

(** A downmix for another layout than the target: announced, but not written. *)
Definition ch_other : chst :=
  mkCh (sg [0] [2] [lidx 2] [0] [0] 1 0 0) [0] 1 dx_ex nopm 6.
Lemma other_downmix :
  exists d n c' f g gs s l,
    ch_store ch_other (repeat 0 40) = Done (d, n, c') /\ n <= 40 /\
    exec p_gca (fresh d) = Done ((f, g :: gs), s) /\
    gg_dmx g = Some (mkGd None l) /\ length l = 1%nat /\ l <> [mkDent 5 2 (Some [mt_ex])].
Proof.
  do 8 eexists. split; [vm_compute; reflexivity|]. split; [vm_compute; discriminate|].
  split; [vm_compute; reflexivity|]. split; [reflexivity|]. split; [reflexivity|]. discriminate.
Qed.

(** Production metadata of two channel groups, one byte in the stream: 3 bits are written. *)
Definition ch_prod : chst :=
  mkCh (sg [0; 0] [2; 2] [lidx 2; lidx 2] [0; 0] [0; 0] 2 0 0) [0; 0] 0 dmxc0
    (mkPm 1 1 0 57 [] (repeat 0 32) []) 2.
Lemma production_length :
  exists d n c' g k s,
    ch_store ch_prod (repeat 0 40) = Done (d, n, c') /\ n <= 40 /\
    exec (p_frame ;;; rd 9 ;;; g <- p_gca_group ;; k <- rd 16 ;; Ret (g, k)) (fresh d) = Done ((g, k), s) /\
    gg_n g = 2 /\ k <> 2.
Proof.
  do 6 eexists. split; [vm_compute; reflexivity|]. split; [vm_compute; discriminate|].
  split; [vm_compute; reflexivity|]. split; [reflexivity|]. discriminate.
Qed.

(** ** Objects *)

Definition raw_ex (k : nat) : raws :=
  mkRaw (repeat (-30) k) (repeat 12 k) (repeat 7 k) (repeat (-5) k) (repeat 60 k) (repeat 9 k) (repeat 3 k) (repeat 6 k).
Definition dsc0 : dscs := mkDsc [] [] [] [] [] [] [] [].
Definition sec_ex : sector := mkSec 1 4 (of_int 0) (of_int 0) (of_int 0) (of_int 0).
Definition ang_ex : sector := mkSec 0 0 (ang_az 83) (ang_az 90) (ang_el 10) (ang_el 20).
(** [n] objects in the second group, [nfr] sub-frames. *)
Definition ob_exd (d : f32) (n nfr : nat) (secs : list sector) : obst :=
  mkOb (sg [0; 1] [2; Z.of_nat n] [lidx 2; lidx 0] (repeat 2 24) (repeat 1 24) 1 1 0)
    (mkOC (1024 / Z.of_nat nfr) 1024 0 1 0 [] 0)
    (mkO (Z.of_nat n) 0 (repeat 1 4) (repeat 1 (n * nfr)) (repeat 0 4) (raw_ex (n * nfr)) dsc0 (mkFix 0 0 0 0 0 0))
    (mkEn 1 0 1 0 0 0 (repeat 1 24) (repeat 5 24) [] 1)
    (mkEnh [] (repeat (mkEx (Z.of_nat (length secs)) secs) n) (repeat d n) (repeat (of_int 0) n) [] [] [])
    None nopm.
Definition ob_ex := ob_exd (of_int 0).
Lemma nth_rep {A} (x : A) m i : (i < m)%nat -> nth_error (repeat x m) i = Some x.
Proof. revert i. induction m as [|m IH]; intros i Hi; [lia|]. destruct i; [reflexivity|]. apply IH. lia. Qed.
Lemma ob_exd_ok d v n nfr secs : trunc d = Some v -> 0 <= v < 128 ->
  (1 <= n <= 24)%nat -> In nfr [1; 2; 4]%nat -> (length secs <= 15)%nat ->
  Forall sect_ok secs -> ob_ok (ob_exd d n nfr secs) nfr 1 2.
Proof.
  intros Td Hv Hn Hf Hl Hs. unfold ob_ok. cbn [ob_exd b_cfg b_st b_sig b_prod b_ids b_enh b_enhc oc_fl oc_ccfl oc_dyn oc_uni o_n nopm pm_present
    q_fixed q_prio sg e_diff e_div e_exc en_az].
  assert (F : 0 < 1024 / Z.of_nat nfr < 4096 /\ Z.of_nat nfr = 1024 / (1024 / Z.of_nat nfr) /\ (nfr < 64)%nat).
  { cbn [In] in Hf. decompose [or] Hf; try contradiction; subst nfr; cbn; lia. }
  split; [apply F|]. split; [lia|]. split; [apply F|]. split; [apply F|]. split; [lia|]. split; [lia|]. split; [lia|].
  split; [lia|]. split.
  { unfold one_group. cbn [q_num q_type q_nsig sg length nth_error]. split; [cbn; lia|]. split; [lia|].
    split; [reflexivity|]. split; [reflexivity|]. split; [|reflexivity].
    intros k Hk. assert (k = 0%nat) by lia. subst k. exists 0. split; [reflexivity|lia]. }
  split; [lia|]. split; [lia|]. exists 1, 2. split; [lia|]. split; [lia|].
  split; [reflexivity|]. split; [reflexivity|]. intros i Hi. rewrite Nat2Z.id in Hi.
  split.
  { intros k Hk. unfold pos_ok. cbn [ob_exd b_st o_n o_raw o_has raw_ex r_az r_el r_rad r_gain r_pri r_sw r_sh r_sd].
    rewrite Nat2Z.id. assert (J : (k * n + i < n * nfr)%nat) by nia.
    repeat split; (eexists; split; [apply nth_rep, J|lia]). }
  split; [exact I|]. split; [apply nth_rep; lia|]. split; [apply nth_rep; lia|].
  split; [exists d, v; split; [apply nth_rep; lia|split; [exact Td|lia]]|].
  split; [exists (of_int 0), 0; split; [apply nth_rep; lia|split; [reflexivity|lia]]|].
  split; [exists 5; split; [apply nth_rep; lia|lia]|].
  exists (mkEx (Z.of_nat (length secs)) secs). split; [apply nth_rep; lia|]. cbn [ex_num ex_sec].
  split; [lia|]. split; [lia|]. rewrite Nat2Z.id, firstn_all. exact Hs.
Qed.
Lemma ob_ex_ok n nfr secs : (1 <= n <= 24)%nat -> In nfr [1; 2; 4]%nat -> (length secs <= 15)%nat ->
  Forall sect_ok secs -> ob_ok (ob_ex n nfr secs) nfr 1 2.
Proof. apply (ob_exd_ok _ 0); [reflexivity|lia]. Qed.

Lemma ob_ex_read : exists d n, ob_store (ob_ex 2 1 [sec_ex]) (repeat 255 40) = Done (d, n) /\ n <= 40 /\
  let g i := mkGo i [Some (mkGp (-30) 12 7 (-5) (Some 6) (SpFull 60 9 3))] 1 2 0 0 5 [GPredef 4] in
  reads p_goa d (mkFc 16 0 0, [g 2; g 3], []).
Proof.
  do 2 eexists. split; [vm_compute; reflexivity|]. split; [vm_compute; discriminate|].
  eexists. vm_compute. reflexivity.
Qed.

(** Too many bits for 768 bytes. *)
Lemma ob_big : exists mem d n, length mem = 768%nat /\
  ob_ok (ob_ex 24 4 (repeat sec_ex 15)) 4 1 2 /\
  ob_store (ob_ex 24 4 (repeat sec_ex 15)) mem = Done (d, n) /\ 768 < n.
Proof.
  assert (E : exists ops, x_oam_meta (ob_ex 24 4 (repeat sec_ex 15)) = Done ops /\ 768 < (size ops + 7) / 8).
  { eexists. split; [vm_compute; reflexivity|]. vm_compute. reflexivity. }
  destruct E as (ops & E & B).
  destruct (ob_total (ob_ex 24 4 (repeat sec_ex 15)) (repeat 0 768) ltac:(rewrite repeat_length; lia) _ E) as (d & S1 & _).
  exists (repeat 0 768), d, ((size ops + 7) / 8). split; [apply repeat_length|]. split; [|auto].
  apply ob_ex_ok; [lia|cbn; auto|rewrite repeat_length; lia|].
  apply Forall_forall. intros s Hs. apply repeat_spec in Hs. subst s. left. cbn. lia.
Qed.

(** Diffuseness: the coded values 0 .. 127 are held as fractions. *)
Definition coded7 (v : Z) : f32 := f_div (of_int v) (lit 127 1).
Lemma coded7_all : forallb (fun v => match trunc (coded7 v) with Some t => (t =? if v =? 127 then 1 else 0) | None => false end)
  (map Z.of_nat (seq 0 128)) = true.
Proof. vm_compute. reflexivity. Qed.
Lemma upto (P : Z -> bool) n : forallb P (map Z.of_nat (seq 0 n)) = true -> forall v, 0 <= v < Z.of_nat n -> P v = true.
Proof.
  intros H v Hv. rewrite forallb_forall in H. apply H. apply in_map_iff. exists (Z.to_nat v).
  split; [lia|]. apply in_seq. lia.
Qed.
Lemma coded7_trunc v : 0 <= v < 128 -> trunc (coded7 v) = Some (if v =? 127 then 1 else 0).
Proof.
  intros Hv. assert (A := upto _ 128 coded7_all v ltac:(lia)). cbv beta in A.
  destruct (trunc (coded7 v)); [|discriminate]. apply Z.eqb_eq in A. subst. reflexivity.
Qed.

(** Excluded sectors: no coded azimuth limit comes back, and only one elevation does. *)
Lemma az_all : forallb (fun v => match trunc (ang_az v) with Some t => negb (t mod 128 =? v) && (-180 <=? t) && (t <=? 180) | None => false end)
  (map Z.of_nat (seq 0 128)) = true.
Proof. vm_compute. reflexivity. Qed.
Lemma el_all : forallb (fun v => match trunc (ang_el v) with Some t => ((v =? 18) || negb (t mod 32 =? v)) && (-180 <=? t) && (t <=? 180) | None => false end)
  (map Z.of_nat (seq 0 32)) = true.
Proof. vm_compute. reflexivity. Qed.
Lemma angles_wrong idx a b e f g : 0 <= a < 128 -> 0 <= b < 128 -> 0 <= e < 32 -> 0 <= f < 32 ->
  sect_view (mkSec 0 idx (ang_az a) (ang_az b) (ang_el e) (ang_el f)) g ->
  exists a' b' e' f', g = GAngles a' b' e' f' /\ a' <> a /\ b' <> b /\ (e' = e -> e = 18) /\ (f' = f -> f = 18).
Proof.
  intros Ha Hb He Hf (a' & b' & e' & f' & Ta & Tb & Te & Tf & ->). cbn [sc_minaz sc_maxaz sc_minel sc_maxel] in *.
  assert (A := upto _ 128 az_all a ltac:(lia)). assert (B := upto _ 128 az_all b ltac:(lia)).
  assert (E := upto _ 32 el_all e ltac:(lia)). assert (F := upto _ 32 el_all f ltac:(lia)).
  cbv beta in A, B, E, F. rewrite Ta in A. rewrite Tb in B. rewrite Te in E. rewrite Tf in F.
  do 4 eexists. split; [reflexivity|].
  set (ma := a' mod 128) in *. set (mb := b' mod 128) in *. set (me := e' mod 32) in *. set (mf := f' mod 32) in *.
  clearbody ma mb me mf. lia.
Qed.
Lemma angle_sector_ok idx a b e f : 0 <= a < 128 -> 0 <= b < 128 -> 0 <= e < 32 -> 0 <= f < 32 ->
  sect_ok (mkSec 0 idx (ang_az a) (ang_az b) (ang_el e) (ang_el f)).
Proof.
  intros Ha Hb He Hf. right. cbn [sc_pre sc_minaz sc_maxaz sc_minel sc_maxel]. split; [reflexivity|].
  assert (A := upto _ 128 az_all a ltac:(lia)). assert (B := upto _ 128 az_all b ltac:(lia)).
  assert (E := upto _ 32 el_all e ltac:(lia)). assert (F := upto _ 32 el_all f ltac:(lia)).
  cbv beta in A, B, E, F.
  repeat (apply Forall_cons; [|]); try apply Forall_nil.
  - destruct (trunc (ang_az a)) as [v|]; [exists v; split; [reflexivity|lia]|discriminate].
  - destruct (trunc (ang_az b)) as [v|]; [exists v; split; [reflexivity|lia]|discriminate].
  - destruct (trunc (ang_el e)) as [v|]; [exists v; split; [reflexivity|lia]|discriminate].
  - destruct (trunc (ang_el f)) as [v|]; [exists v; split; [reflexivity|lia]|discriminate].
Qed.

(** Channels with fixed position and priority 7, then one object without and with 2. *)
Definition ob_props : obst :=
  let b := ob_ex 1 1 [] in
  mkOb (sg [0; 1] [2; 1] [lidx 2; lidx 0] [7; 2] [1; 0] 1 1 0) (b_cfg b) (b_st b) (b_enhc b) (b_enh b) None nopm.
Lemma object_properties :
  exists d n f g s,
    nth_error (q_type (b_sig ob_props)) 1 = Some 1 /\ nth_error (q_nsig (b_sig ob_props)) 1 = Some 1 /\
    nth_error (q_fixed (b_sig ob_props)) 1 = Some 0 /\ nth_error (q_prio (b_sig ob_props)) 1 = Some 2 /\
    ob_store ob_props (repeat 0 40) = Done (d, n) /\ n <= 40 /\
    exec p_goa (fresh d) = Done ((f, [g], []), s) /\ go_fixed g = 1 /\ go_prio g = 7.
Proof.
  do 5 eexists. do 4 (split; [reflexivity|]). split; [vm_compute; reflexivity|].
  split; [vm_compute; discriminate|]. split; [vm_compute; reflexivity|]. split; reflexivity.
Qed.

(** Two object groups of one object each with scene ids 10 and 20. *)
Definition ob_two : obst :=
  let b := ob_ex 2 1 [] in
  mkOb (sg [1; 1] [1; 1] [lidx 0; lidx 0] [2; 2] [1; 1] 0 2 0) (b_cfg b) (b_st b) (b_enhc b) (b_enh b)
    (Some [[10; 0]; [20; 0]]) nopm.
Lemma object_ids :
  exists d n f g h s,
    b_ids ob_two = Some [[10; 0]; [20; 0]] /\ q_nsig (b_sig ob_two) = [1; 1] /\ q_type (b_sig ob_two) = [1; 1] /\
    ob_store ob_two (repeat 0 40) = Done (d, n) /\ n <= 40 /\
    exec p_goa (fresh d) = Done ((f, [g; h], []), s) /\ go_id g = 10 /\ go_id h <> 20.
Proof.
  do 6 eexists. do 3 (split; [reflexivity|]). split; [vm_compute; reflexivity|].
  split; [vm_compute; discriminate|]. split; [vm_compute; reflexivity|]. split; [reflexivity|]. discriminate.
Qed.

(** Production metadata: announced with its size, nothing written. *)
Definition ob_prod : obst :=
  let b := ob_ex 1 1 [] in
  mkOb (b_sig b) (b_cfg b) (b_st b) (b_enhc b) (b_enh b) None (mkPm 1 3 1 40 [1] [1] [9]).
Lemma object_production :
  exists ops d n, x_oam_meta ob_prod = Done (ops ++ [WB 1 3; WB 0 3; WB 3 10]) /\
    ob_store ob_prod (repeat 255 40) = Done (d, n) /\ n <= 40 /\
    exists f g s, exec p_goa (fresh d) = Done ((f, [g], [(0, [255; 255; 255])]), s).
Proof.
  do 3 eexists. split.
  { match goal with |- ?x = _ => let y := eval vm_compute in x in
      match y with Done ?l => let k := eval vm_compute in (firstn (length l - 3) l) in
        transitivity (Done (k ++ [WB 1 3; WB 0 3; WB 3 10])); [vm_compute; reflexivity|reflexivity] end end. }
  split; [vm_compute; reflexivity|]. split; [vm_compute; discriminate|].
  do 3 eexists. vm_compute. reflexivity.
Qed.

(** ** HOA *)

Definition scr_ex : scrn := mkScr 1 100 200 300.
Definition scx_ex : scrx :=
  mkScx 1 600 700 2 [3; 4] [1; 1] [1; 0] [50; 60] [0; 900] [10; 20] [30; 40].
Definition mat_ex : hmat :=
  mkHM 1 [0] 2 100 0 0 0 [0] [-1] 1 [] 0 0 1 1 0 0 0 [] [] 0 [] [] [] [] [] [] 1 0.
Definition ho_ex (nfc : Z) (ref : f32) (matp : Z) : host :=
  mkHo (sg [0; 3; 1; 3] [2; 9; 4; 16] [lidx 2; lidx 0; lidx 0; lidx 0] [1; 2; 3; 4] [0; 1; 0; 1] 1 1 2)
    1024 3 nfc ref matp mat_ex 16 1 scr_ex scx_ex nopm.
Lemma ho_ex_ok : ho_ok (ho_ex 0 (of_int 0) 0).
Proof.
  unfold ho_ok. cbn [ho_ex a_fl a_order a_nfc a_matp a_srel a_scr a_scx a_prod a_sig].
  split; [lia|]. split; [lia|]. split; [reflexivity|]. split; [reflexivity|]. split; [lia|]. split.
  { unfold screen_ok. cbn [scr_ex scx_ex sz_non sz_az sz_el sz_bot sx_over sx_dl sx_dr sx_num].
    repeat (split; [lia|]). intros k Hk. change (Z.to_nat 2) with 2%nat in Hk.
    assert (C : k = 0%nat \/ k = 1%nat) by lia. destruct C as [-> | ->]; cbn;
      repeat split; (eexists; split; [reflexivity|lia]). }
  split; [cbn; lia|]. split; [cbn; lia|]. split; [reflexivity|].
  intros j Hj. change (In j [1; 3]%nat) in Hj. destruct Hj as [<-|[<-|[]]];
    (split; eexists; (split; [reflexivity|lia])).
Qed.
Lemma ho_ex_read : exists d n, ho_store (ho_ex 0 (of_int 0) 0) (repeat 255 80) = Done (d, n) /\ n <= 80 /\
  let sc := Some (mkGs (Some (100, 200, 300)) (Some (600, 700)) [(3, GCentered 50 10 30); (4, GSides 60 900 20 40)]) in
  reads p_gha d (mkFc 16 0 0, [mkGh 1 2 3 None None sc; mkGh 1 4 3 None None sc]).
Proof.
  do 2 eexists. split; [vm_compute; reflexivity|]. split; [vm_compute; discriminate|].
  eexists. vm_compute. reflexivity.
Qed.

(** The near field distances 0.5 and 0.75. *)
Lemma near_field : lit 1 2 <> lit 3 4 /\
  forall mem, ho_store (ho_ex 1 (lit 1 2) 0) mem = ho_store (ho_ex 1 (lit 3 4) 0) mem.
Proof.
  split; [vm_compute; discriminate|]. intros mem. unfold ho_store.
  replace (x_hoa_meta (ho_ex 1 (lit 3 4) 0)) with (x_hoa_meta (ho_ex 1 (lit 1 2) 0)) by (vm_compute; reflexivity).
  reflexivity.
Qed.
Lemma near_field_written : exists ops, x_hoa_meta (ho_ex 1 (lit 1 2) 0) = Done ops.
Proof. eexists. vm_compute. reflexivity. Qed.

(** A rendering matrix of 100 bits. *)
Lemma matrix_cut :
  exists d n f g h s, ho_store (ho_ex 0 (of_int 0) 1) (repeat 0 120) = Done (d, n) /\ n <= 120 /\
    exec p_gha (fresh d) = Done ((f, [g; h]), s) /\
    (exists l, gh_mat g = Some l /\ length l = 100%nat) /\ gh_screen g <> gh_screen h.
Proof.
  do 6 eexists. split; [vm_compute; reflexivity|]. split; [vm_compute; discriminate|].
  split; [vm_compute; reflexivity|]. split; [eexists; split; reflexivity|]. discriminate.
Qed.

(** Diffuseness of an object in a whole payload. *)
Lemma diffuseness_lost b nfr grp off mem i v : ob_ok b nfr grp off -> are_bytes mem -> (0 < length mem)%nat ->
  (i < Z.to_nat (o_n (b_st b)))%nat -> nth_error (e_diff (b_enh b)) i = Some (coded7 v) -> 1 <= v <= 127 ->
  exists d n, ob_store b mem = Done (d, n) /\
    (n <= Z.of_nat (length mem) ->
     exists f gs g, reads p_goa d (f, gs, []) /\ nth_error gs i = Some g /\ go_diff g <> v).
Proof.
  intros O B L Hi D V. destruct (send_objects b nfr grp off mem O B L) as (d & n & gs & E & Ld & Lg & G & R).
  exists d, n. split; [exact E|]. intros Hn. specialize (R Hn).
  destruct (nth_error gs i) as [g|] eqn:N; [|apply nth_error_None in N; lia].
  do 2 eexists. exists g. split; [exact R|]. split; [exact N|].
  destruct (G i g N) as (_ & _ & _ & _ & _ & (x & X1 & X2) & _).
  rewrite D in X1. injection X1 as <-. rewrite coded7_trunc in X2 by lia. injection X2 as X2. rewrite <- X2.
  destruct (Z.eqb_spec v 127); lia.
Qed.

(** An excluded sector given by angles in a whole payload. *)
Lemma angles_lost b nfr grp off mem i k ex idx az1 az2 el1 el2 : ob_ok b nfr grp off -> are_bytes mem -> (0 < length mem)%nat ->
  (i < Z.to_nat (o_n (b_st b)))%nat -> nth_error (e_exc (b_enh b)) i = Some ex -> (Z.of_nat k < ex_num ex) ->
  nth_error (ex_sec ex) k = Some (mkSec 0 idx (ang_az az1) (ang_az az2) (ang_el el1) (ang_el el2)) ->
  0 <= az1 < 128 -> 0 <= az2 < 128 -> 0 <= el1 < 32 -> 0 <= el2 < 32 ->
  exists d n, ob_store b mem = Done (d, n) /\
    (n <= Z.of_nat (length mem) ->
     exists f gs g a' b' e' f', reads p_goa d (f, gs, []) /\ nth_error gs i = Some g /\
       nth_error (go_sect g) k = Some (GAngles a' b' e' f') /\ a' <> az1 /\ b' <> az2 /\ (e' = el1 -> el1 = 18) /\ (f' = el2 -> el2 = 18)).
Proof.
  intros O B L Hi X K S1 H1 H2 H3 H4. destruct (send_objects b nfr grp off mem O B L) as (d & n & gs & E & Ld & Lg & G & R).
  exists d, n. split; [exact E|]. intros Hn. specialize (R Hn).
  destruct (nth_error gs i) as [g|] eqn:N; [|apply nth_error_None in N; lia].
  destruct (G i g N) as (_ & _ & _ & _ & _ & _ & _ & _ & ex' & X1 & X2).
  rewrite X in X1. injection X1 as <-.
  assert (Q : forall (l : list sector) (m : list gsect) k s, Forall2 sect_view l m -> nth_error l k = Some s ->
    exists t, nth_error m k = Some t /\ sect_view s t).
  { clear. intros l m k s F. revert k. induction F as [|a b l m H F IH]; intros k Hk; [destruct k; discriminate|].
    destruct k; [injection Hk as <-; exists b; split; [reflexivity|exact H]|]. apply IH. exact Hk. }
  assert (FN : nth_error (firstn (Z.to_nat (ex_num ex)) (ex_sec ex)) k =
    Some (mkSec 0 idx (ang_az az1) (ang_az az2) (ang_el el1) (ang_el el2))).
  { rewrite <- S1. assert (k < Z.to_nat (ex_num ex))%nat as Hk by lia. clear -Hk. revert Hk. generalize (Z.to_nat (ex_num ex)) as m, (ex_sec ex) as l.
    revert k. induction k; intros m l Hk; (destruct m; [lia|]); (destruct l; [reflexivity|]); cbn; [reflexivity|]. apply IHk. lia. }
  destruct (Q _ _ _ _ X2 FN) as (t & T1 & T2).
  destruct (angles_wrong _ _ _ _ _ _ H1 H2 H3 H4 T2) as (a' & b' & e' & f' & -> & A).
  do 2 eexists. exists g, a', b', e', f'. split; [exact R|]. split; [exact N|]. split; [exact T1|]. exact A.
Qed.
Lemma diffuse_ex : ob_ok (ob_exd (coded7 64) 2 1 [ang_ex]) 1 1 2 /\
  exists d n, ob_store (ob_exd (coded7 64) 2 1 [ang_ex]) (repeat 0 40) = Done (d, n) /\ n <= 40.
Proof.
  split; [|do 2 eexists; split; [vm_compute; reflexivity|vm_compute; discriminate]].
  apply (ob_exd_ok _ 0); [vm_compute; reflexivity|lia|lia|cbn; auto|cbn; lia|].
  apply Forall_cons; [apply angle_sector_ok; lia|apply Forall_nil].
Qed.

(** Up to 24 objects, 4 sub-frames and 5 predefined sectors fit. *)
Lemma objects_fit b mem : length mem = 768%nat -> forall ops, x_oam_meta b = Done ops ->
  0 <= o_n (b_st b) <= 24 -> 0 <= Z.quot (oc_ccfl (b_cfg b)) (oc_fl (b_cfg b)) <= 4 ->
  (forall i ex, nth_error (e_exc (b_enh b)) i = Some ex -> ex_num ex <= 5 /\ Forall (fun s => sc_pre s = 1) (ex_sec ex)) ->
  exists d n, ob_store b mem = Done (d, n) /\ length d = 768%nat /\ n <= 768.
Proof.
  intros L ops E Hn Hf Hx. destruct (ob_total b mem ltac:(lia) ops E) as (d & S1 & Ld).
  exists d, ((size ops + 7) / 8). split; [exact S1|]. split; [lia|].
  pose proof (oam_size b ops 5 _ E ltac:(lia) ltac:(lia) eq_refl ltac:(lia) Hx).
  set (q := Z.quot _ _) in *. clearbody q.
  assert (size ops <= 6033) by nia. apply Z.div_le_upper_bound; lia.
Qed.
