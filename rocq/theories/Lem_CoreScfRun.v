(** * Lem_CoreScfRun: the loops over scale factors *)

From Coq Require Import ZArith List Lia Bool.
From Verif Require Import Bits BitBuf Prog Lem_CoreSafe CoreScf Spec_CoreScf Lem_CoreScf.
Import ListNotations.
Open Scope list_scope.
Open Scope Z_scope.
Local Notation len := List.length.

(** ** Filling the window *)
Lemma show_run d P bp cnt : are_bytes d -> 0 <= bp < 8 -> 8 * Z.of_nat P + bp + cnt <= 8 * Z.of_nat (len d) ->
  (8 * Z.of_nat P + bp + cnt = 8 * Z.of_nat (len d) \/ 24 < cnt) ->
  forall n i, (i + n = 4)%nat ->
  show_loop n d (Z.of_nat (P + Nat.min i (len d - P))) (cnt - 8 * Z.of_nat i)
      (val_of (firstn (8 * i) (skipn (8 * P) (bytes_bits d) ++ repeat false 32))) (Z.of_nat (Nat.min i (len d - P)))
    = Done (val_of (W32 d P), Z.of_nat (Nat.min 4 (len d - P))).
Proof.
  intros B BP C X. set (T := skipn (8 * P) (bytes_bits d) ++ repeat false 32).
  assert (BL := bytes_bits_length d).
  assert (TL : (32 <= len T)%nat) by (unfold T; rewrite app_length, repeat_length; lia).
  induction n as [|n IH]; intros i I; cbn [show_loop].
  - replace i with 4%nat by lia. reflexivity.
  - assert (SP : firstn (8 * S i) T = firstn (8 * i) T ++ firstn 8 (skipn (8 * i) T)).
    { rewrite <- (firstn_skipn (8 * i) (firstn (8 * S i) T)). rewrite firstn_firstn. replace (Nat.min (8 * i) (8 * S i)) with (8 * i)%nat by lia. f_equal.
      rewrite firstn_skipn_comm. do 2 f_equal. lia. }
    assert (RB := val_of_range (firstn (8 * i) T)). rewrite firstn_length, Nat.min_l in RB by lia.
    assert (P24 : 2 ^ Z.of_nat (8 * i) <= 2 ^ 24) by (apply Z.pow_le_mono_r; lia).
    assert (UB8 : u32 (val_of (firstn (8 * i) T) * 2 ^ 8) = Z.shiftl (val_of (firstn (8 * i) T)) 8).
    { unfold u32, to_u. rewrite Z.mod_small by lia. rewrite Z.shiftl_mul_pow2 by lia. reflexivity. }
    rewrite UB8.
    destruct (Z.ltb_spec 0 (cnt - 8 * Z.of_nat i)) as [Y|Y].
    + replace (Nat.min i (len d - P)) with i by lia.
      destruct (get_byte_in d (Z.of_nat (P + i)) ltac:(lia)) as (v & G & IN). unfold oget. rewrite G. cbn [obind].
      assert (V : is_byte v) by (unfold are_bytes in B; rewrite Forall_forall in B; auto). unfold is_byte in V.
      apply get_byte_split in G. destruct G as [_ G]. rewrite Nat2Z.id in G.
      assert (E : firstn 8 (skipn (8 * i) T) = bits_of 8 v).
      { unfold T. rewrite skipn_app, skipn_skipn_add, skipn_length. replace (8 * P + 8 * i)%nat with (8 * (P + i))%nat by lia. rewrite bytes_bits_skipn, G.
        cbn [bytes_bits flat_map]. rewrite <- app_assoc. apply firstn_bits_app. }
      rewrite lor_low by (change (2 ^ 8) with 256; lia).
      replace (val_of (firstn (8 * i) T) * 2 ^ 8 + v) with (val_of (firstn (8 * S i) T)).
      * replace (Z.of_nat (P + i) + 1) with (Z.of_nat (P + Nat.min (S i) (len d - P))) by lia.
        replace (cnt - 8 * Z.of_nat i - 8) with (cnt - 8 * Z.of_nat (S i)) by lia.
        replace (Z.of_nat i + 1) with (Z.of_nat (Nat.min (S i) (len d - P))) by lia. apply IH. lia.
      * rewrite SP, E, val_of_app, bits_of_length, val_bits_of by (exact V). reflexivity.
    + assert (Q : (len d - P <= i)%nat) by lia.
      assert (E : firstn 8 (skipn (8 * i) T) = repeat false 8).
      { unfold T. rewrite skipn_app, skipn_skipn_add, skipn_length. rewrite (skipn_all2 (bytes_bits d)) by lia. cbn [app].
        set (r := (8 * i - (len (bytes_bits d) - 8 * P))%nat). replace 32%nat with (r + (8 + (24 - r)))%nat by lia. rewrite !repeat_app.
        rewrite skipn_app, skipn_all2, repeat_length, Nat.sub_diag by (rewrite repeat_length; lia). cbn [app skipn]. reflexivity. }
      replace (Z.shiftl (val_of (firstn (8 * i) T)) 8) with (val_of (firstn (8 * S i) T)).
      * replace (P + Nat.min i (len d - P))%nat with (P + Nat.min (S i) (len d - P))%nat by lia.
        replace (cnt - 8 * Z.of_nat i - 8) with (cnt - 8 * Z.of_nat (S i)) by lia.
        replace (Nat.min i (len d - P)) with (Nat.min (S i) (len d - P)) by lia. apply IH. lia.
      * rewrite SP, E, val_of_app, repeat_length. rewrite Z.shiftl_mul_pow2 by lia. replace (val_of (repeat false 8)) with 0 by reflexivity. rewrite Z.add_0_r. reflexivity.
Qed.

(** The reader has all bits of the buffer still to deliver, or at least 25. *)
Definition enough (s : rbuf) : Prop := bitpos s + r_cnt s = 8 * Z.of_nat (len (r_data s)) \/ 24 < r_cnt s.

Lemma show_start s : wf s -> enough s -> exists k,
  show_loop 4 (r_data s) (r_ptr s) (r_cnt s) 0 0 = Done (val_of (W32 (r_data s) (Z.to_nat (r_ptr s))), Z.of_nat k) /\
  Win (r_data s) k (Z.to_nat (r_ptr s)) (7 - r_pos s) (val_of (W32 (r_data s) (Z.to_nat (r_ptr s)))) /\
  (8 * Z.to_nat (r_ptr s) + Z.to_nat (7 - r_pos s) = Z.to_nat (bitpos s))%nat.
Proof.
  intros (B & P0 & PS & C0 & C) E. unfold bitpos in *. set (P := Z.to_nat (r_ptr s)). assert (EP : r_ptr s = Z.of_nat P) by lia.
  exists (Nat.min 4 (len (r_data s) - P)). unfold enough, bitpos in E. rewrite EP in *.
  assert (X := show_run (r_data s) P (7 - r_pos s) (r_cnt s) B ltac:(lia) ltac:(lia) ltac:(lia) 4 0 eq_refl).
  cbn [Nat.min] in X. rewrite Z.mul_0_r, Z.sub_0_r, Nat.add_0_r in X. cbn [firstn val_of Nat.mul] in X. change (Z.of_nat 0) with 0 in X.
  split; [exact X|]. split; [|lia]. unfold Win. sp; auto; lia.
Qed.

(** ** Bands *)
Lemma oput_app done x (y v : Z) : oput (done ++ y :: x) (Z.of_nat (len done)) v = Done (done ++ v :: x).
Proof.
  unfold oput. rewrite app_length. cbn [len]. replace (Z.of_nat (len done) <? 0) with false by (symmetry; apply Z.ltb_ge; lia).
  replace (Z.of_nat (len done + S (len x)) <=? Z.of_nat (len done)) with false by (symmetry; apply Z.leb_gt; lia). cbn [orb].
  rewrite Nat2Z.id. rewrite firstn_app, Nat.sub_diag, firstn_all, firstn_O, app_nil_r.
  rewrite skipn_app, skipn_all2 by lia. replace (S (len done) - len done)%nat with 1%nat by lia. reflexivity.
Qed.

Definition Stream (d : list Z) (P : nat) (bp : Z) (l : list bool) : Prop := skipn (8 * P + Z.to_nat bp) (bytes_bits d) = l.

Lemma last_any (vs : list Z) : forall a b, vs <> [] -> last vs a = last vs b.
Proof. induction vs as [|v vs IH]; intros a b H; [congruence|]. destruct vs; [reflexivity|]. apply (IH a b). discriminate. Qed.
Lemma last_cons (vs : list Z) v f : last (v :: vs) f = last vs v.
Proof. destruct vs as [|a vs]; [reflexivity|]. apply (last_any (a :: vs) f v). discriminate. Qed.
Lemma bands_codes d k first max m : are_bytes d -> forall vs b P bp w done x f rest,
  Win d k P bp w -> valid_steps f vs -> Stream d P bp (enc_steps f vs ++ rest) -> (b + len vs = max)%nat -> first && (b =? 0)%nat = false \/ vs = [] ->
  (len vs <= len x)%nat ->
  exists P' bp' w', sf_bands d first max (len vs + m) b ((Z.of_nat (P + k), bp, w), done ++ x, Z.of_nat (len done), f)
    = sf_bands d first max m (b + len vs) ((Z.of_nat (P' + k), bp', w'), done ++ vs ++ skipn (len vs) x, Z.of_nat (len done + len vs), last vs f) /\
    Win d k P' bp' w' /\ Stream d P' bp' rest /\ 8 * Z.of_nat P' + bp' = 8 * Z.of_nat P + bp + Z.of_nat (len (enc_steps f vs)).
Proof.
  intros B. induction vs as [|v vs IH]; intros b P bp w done x f rest W V R M F L.
  - exists P, bp, w. cbn [len Nat.add app skipn last enc_steps] in *. rewrite !Nat.add_0_r. sp; auto. lia.
  - destruct F as [F|F]; [|discriminate]. cbn [valid_steps] in V. destruct V as (V1 & V2 & V). cbn [enc_steps] in R. unfold step_code in R. rewrite <- app_assoc in R.
    destruct x as [|y x]; [cbn in L; lia|]. cbn [len] in *.
    destruct (code_step d k P bp w (60 + (v - f)) _ B W ltac:(lia) R) as (P1 & bp1 & w1 & X1 & X2 & X3 & X4).
    cbn [Nat.add sf_bands]. rewrite F. replace (max <=? b)%nat with false by (symmetry; apply Nat.leb_gt; lia).
    rewrite X1. cbn [obind]. cbv zeta. replace (f + (60 + (v - f) - 60)) with v by lia. rewrite oput_app. cbn [obind].
    replace (255 <? v) with false by (symmetry; apply Z.ltb_ge; lia).
    destruct (IH (S b) P1 bp1 w1 (done ++ [v]) x v rest X2 V X3 ltac:(lia) ltac:(left; destruct first; reflexivity) ltac:(lia)) as (P2 & bp2 & w2 & Y1 & Y2 & Y3 & Y4).
    exists P2, bp2, w2. split; [|sp; auto].
    + rewrite <- app_assoc in Y1. cbn [app] in Y1. rewrite app_length in Y1. cbn [len] in Y1.
      replace (Z.of_nat (len done) + 1) with (Z.of_nat (len done + 1)) by lia. etransitivity; [exact Y1|]. cbn [app skipn].
      replace (S b + len vs)%nat with (b + S (len vs))%nat by lia. replace (len done + 1 + len vs)%nat with (len done + S (len vs))%nat by lia.
      rewrite last_cons, <- app_assoc. reflexivity.
    + cbn [enc_steps]. rewrite app_length. unfold step_code. unfold scf_word in X4. lia.
Qed.
Lemma bands_zero d first max : forall n b q done x f, (max <= b)%nat -> (first && (b =? 0)%nat = false) -> (n <= len x)%nat ->
  sf_bands d first max n b (q, done ++ x, Z.of_nat (len done), f) = Done (0, (q, done ++ repeat 0 n ++ skipn n x, Z.of_nat (len done + n), f)).
Proof.
  induction n as [|n IH]; intros b q done x f M F L; cbn [sf_bands].
  - rewrite Nat.add_0_r. reflexivity.
  - rewrite F. replace (max <=? b)%nat with true by (symmetry; apply Nat.leb_le; lia). destruct x as [|y x]; [cbn in L; lia|]. cbn [len] in L.
    rewrite oput_app. cbn [obind]. replace (done ++ 0 :: x) with ((done ++ [0]) ++ x) by (rewrite <- app_assoc; reflexivity).
    replace (Z.of_nat (len done) + 1) with (Z.of_nat (len (done ++ [0]))) by (rewrite app_length; cbn [len]; lia).
    rewrite IH by (try lia; destruct first; reflexivity). rewrite app_length. cbn [len repeat skipn app]. rewrite <- app_assoc. cbn [app].
    do 4 f_equal. lia.
Qed.

Lemma last_app_f (a b : list Z) : forall f, last (a ++ b) f = last b (last a f).
Proof. induction a as [|v a IH]; intros f; [reflexivity|]. cbn [app]. rewrite !last_cons. apply IH. Qed.
Lemma enc_steps_app a : forall b f, enc_steps f (a ++ b) = enc_steps f a ++ enc_steps (last a f) b.
Proof. induction a as [|v a IH]; intros b f; [reflexivity|]. rewrite last_cons. cbn [app enc_steps]. rewrite IH, app_assoc. reflexivity. Qed.
Lemma valid_steps_app a : forall b f, valid_steps f (a ++ b) -> valid_steps f a /\ valid_steps (last a f) b.
Proof.
  induction a as [|v a IH]; intros b f H; [cbn; auto|]. rewrite last_cons. cbn [app valid_steps] in *. destruct H as (H1 & H2 & H). destruct (IH _ _ H) as [A C].
  sp; auto; lia.
Qed.

(** One row; what is coded of it, and what it becomes. *)
Definition coded (first : bool) (r : list Z) : list Z := if first then tl r else r.
Definition becomes (first : bool) (max nsb : nat) (f : Z) (r : list Z) : list Z :=
  pad nsb (if first then match max with O => [f] | S _ => r end else r).
Lemma becomes_len first max nsb f r : (max <= nsb)%nat -> (0 < nsb)%nat -> len r = max -> len (becomes first max nsb f r) = nsb.
Proof.
  intros A B C. unfold becomes, pad. rewrite app_length, repeat_length. destruct first; [destruct max; cbn [len]|]; lia.
Qed.
Lemma row_run d k first max nsb r P bp w done x f rest : are_bytes d -> Win d k P bp w -> len r = max -> (max <= nsb)%nat -> (0 < nsb)%nat ->
  (first = true -> f <= 255 /\ hd f r = f) -> valid_steps f (coded first r) -> Stream d P bp (enc_steps f (coded first r) ++ rest) -> (nsb <= len x)%nat ->
  exists P' bp' w', sf_bands d first max nsb 0 ((Z.of_nat (P + k), bp, w), done ++ x, Z.of_nat (len done), f)
    = Done (0, ((Z.of_nat (P' + k), bp', w'), done ++ becomes first max nsb f r ++ skipn nsb x, Z.of_nat (len done + nsb), last (coded first r) f)) /\
    Win d k P' bp' w' /\ Stream d P' bp' rest /\ 8 * Z.of_nat P' + bp' = 8 * Z.of_nat P + bp + Z.of_nat (len (enc_steps f (coded first r))).
Proof.
  intros B W R M N F V S0 L. destruct first.
  - destruct (F eq_refl) as [F1 F2]. destruct nsb as [|nsb]; [lia|]. destruct x as [|y x]; [cbn in L; lia|]. cbn [len] in L.
    cbn [sf_bands Nat.eqb andb]. rewrite oput_app. cbn [obind]. replace (255 <? f) with false by (symmetry; apply Z.ltb_ge; lia).
    replace (done ++ f :: x) with ((done ++ [f]) ++ x) by (rewrite <- app_assoc; reflexivity).
    replace (Z.of_nat (len done) + 1) with (Z.of_nat (len (done ++ [f]))) by (rewrite app_length; cbn [len]; lia).
    cbn [coded] in *. destruct max as [|max].
    + destruct r; [|discriminate]. cbn [tl enc_steps app last] in *. rewrite bands_zero by (try reflexivity; lia). exists P, bp, w. sp; auto; [|cbn [len]; lia].
      unfold becomes, pad. cbn [len app skipn]. rewrite app_length, <- app_assoc. cbn [len app].
      replace (S nsb - 1)%nat with nsb by lia. do 4 f_equal. lia.
    + destruct r as [|v r]; [discriminate|]. cbn [hd] in F2. subst v. cbn [len tl] in *.
      replace (sf_bands d true (S max) nsb 1) with (sf_bands d true (S max) (len r + (nsb - max)) 1) by (f_equal; lia).
      destruct (bands_codes d k true (S max) (nsb - max) B r 1 P bp w (done ++ [f]) x f rest W V S0 ltac:(lia) ltac:(left; reflexivity) ltac:(lia)) as (P' & bp' & w' & X1 & X2 & X3 & X4).
      exists P', bp', w'. split; [|sp; auto]. etransitivity; [exact X1|]. rewrite app_assoc. rewrite <- (app_length (done ++ [f]) r).
      etransitivity; [apply bands_zero; rewrite ?skipn_length; try reflexivity; lia|].
      unfold becomes, pad. cbn [len app skipn]. rewrite !app_length, <- !app_assoc. cbn [len app]. rewrite skipn_skipn_add.
      replace (len r + (nsb - max))%nat with nsb by lia. replace (S nsb - S (len r))%nat with (nsb - max)%nat by lia. do 4 f_equal. lia.
  - cbn [coded] in *. replace (sf_bands d false max nsb 0) with (sf_bands d false max (len r + (nsb - max)) 0) by (f_equal; lia).
    destruct (bands_codes d k false max (nsb - max) B r 0 P bp w done x f rest W V S0 ltac:(lia) ltac:(left; reflexivity) ltac:(lia)) as (P' & bp' & w' & X1 & X2 & X3 & X4).
    exists P', bp', w'. split; [|sp; auto]. etransitivity; [exact X1|]. rewrite app_assoc. rewrite <- (app_length done r).
    etransitivity; [apply bands_zero; rewrite ?skipn_length; try reflexivity; lia|].
    unfold becomes, pad. rewrite !app_length, <- !app_assoc. rewrite skipn_skipn_add.
    replace (len r + (nsb - max))%nat with nsb by lia. replace (nsb - len r)%nat with (nsb - max)%nat by lia. do 4 f_equal. lia.
Qed.

Lemma copy_run k : forall n done (row x : list Z), len row = k -> (n * k <= len x)%nat ->
  sf_copy n (Z.of_nat k) (Z.of_nat (len done)) (done ++ row ++ x) = Done (done ++ List.concat (repeat row (S n)) ++ skipn (n * k) x).
Proof.
  induction n as [|n IH]; intros done row x R L; cbn [sf_copy].
  - cbn. rewrite app_nil_r. reflexivity.
  - cbn [Nat.mul] in L. rewrite !app_length. replace (Z.of_nat (len done) <? 0) with false by (symmetry; apply Z.ltb_ge; lia).
    replace (Z.of_nat (len done + (len row + len x)) <? Z.of_nat (len done) + 2 * Z.of_nat k) with false by (symmetry; apply Z.ltb_ge; lia). cbn [orb].
    replace (Z.to_nat (Z.of_nat (len done) + Z.of_nat k)) with (len done + len row)%nat by lia. rewrite !Nat2Z.id.
    replace (Z.to_nat (Z.of_nat (len done) + 2 * Z.of_nat k)) with (len (done ++ row) + k)%nat by (rewrite app_length; lia).
    replace (firstn (len done + len row) (done ++ row ++ x)) with (done ++ row).
    2:{ rewrite app_assoc. rewrite firstn_app, app_length. rewrite Nat.sub_diag, firstn_O, app_nil_r. rewrite firstn_all2 by (rewrite app_length; lia). reflexivity. }
    replace (firstn k (skipn (len done) (done ++ row ++ x))) with row.
    2:{ rewrite skipn_app, skipn_all, Nat.sub_diag. cbn [app skipn]. rewrite firstn_app. rewrite R, Nat.sub_diag, firstn_O, app_nil_r. rewrite <- R, firstn_all. reflexivity. }
    replace (skipn (len (done ++ row) + k) (done ++ row ++ x)) with (skipn k x).
    2:{ rewrite app_assoc. rewrite skipn_app. rewrite (skipn_all2 (done ++ row)) by lia. cbn [app]. f_equal. lia. }
    replace (Z.of_nat (len done) + Z.of_nat k) with (Z.of_nat (len (done ++ row))) by (rewrite app_length; lia).
    rewrite IH by (auto; rewrite skipn_length; lia). rewrite skipn_skipn_add, <- app_assoc. cbn [repeat List.concat Nat.mul]. rewrite <- !app_assoc. reflexivity.
Qed.

(** ** Groups *)
Definition codedR (first : bool) (rows : list (list Z)) : list Z := match rows with [] => [] | r :: rs => coded first r ++ List.concat rs end.
Definition shown (first : bool) (max : nat) (f : Z) (rows : list (list Z)) : list (list Z) :=
  match rows with [] => [] | r :: rs => (if first then match max with O => [f] | S _ => r end else r) :: rs end.
Lemma spread_cons nsb n sizes r rows : spread nsb (n :: sizes) (r :: rows) = List.concat (repeat (pad nsb r) n) ++ spread nsb sizes rows.
Proof. reflexivity. Qed.
Lemma concat_len {A} (l : list A) : forall n, len (List.concat (repeat l n)) = (n * len l)%nat.
Proof. induction n; cbn; [reflexivity|]. rewrite app_length, IHn. reflexivity. Qed.

Lemma groups_run d k islong max nsb gd nw : are_bytes d -> (max <= nsb)%nat -> (0 < nsb)%nat ->
  forall sizes rows fuel first f done x P bp w group pre post bb rest,
  Win d k P bp w -> Forall (fun n => 1 <= n)%nat sizes -> len rows = len sizes -> Forall (fun r => len r = max) rows ->
  gd = pre ++ ends group sizes ++ post -> nw = group + Z.of_nat (list_sum sizes) -> (len sizes <= fuel)%nat ->
  (islong = true -> Forall (fun n => n = 1%nat) sizes) -> (islong = false -> bb = group) ->
  (first = true -> f <= 255 /\ hd f (hd [] rows) = f) -> valid_steps f (codedR first rows) -> Stream d P bp (enc_steps f (codedR first rows) ++ rest) ->
  (list_sum sizes * nsb <= len x)%nat ->
  exists P' bp' w' p' f', sf_groups fuel d islong nw nsb max gd (Z.of_nat (len pre)) group bb first ((Z.of_nat (P + k), bp, w), done ++ x, Z.of_nat (len done), f)
    = Done (0, ((Z.of_nat (P' + k), bp', w'), done ++ spread nsb sizes (shown first max f rows) ++ skipn (list_sum sizes * nsb) x, p', f')) /\
    Win d k P' bp' w' /\ Stream d P' bp' rest /\ 8 * Z.of_nat P' + bp' = 8 * Z.of_nat P + bp + Z.of_nat (len (enc_steps f (codedR first rows))).
Proof.
  intros B M N. induction sizes as [|n sizes IH]; intros rows fuel first f done x P bp w group pre post bb rest W S1 RL RM G NW FU LO SH FI V ST L.
  - destruct rows; [|discriminate]. cbn [list_sum fold_right] in *. exists P, bp, w, (Z.of_nat (len done)), f.
    assert (E : (nw <=? group) = true) by (apply Z.leb_le; lia). destruct fuel; cbn [sf_groups]; rewrite E; (sp; auto; cbn; lia).
  - destruct rows as [|r rows]; [discriminate|]. cbn [len] in RL. destruct fuel as [|fuel]; [cbn in FU; lia|]. cbn [len] in FU.
    assert (N1 : (1 <= n)%nat) by (inversion S1; auto). assert (S2 : Forall (fun n => 1 <= n)%nat sizes) by (inversion S1; auto).
    assert (R1 : len r = max) by (inversion RM; auto). assert (R2 : Forall (fun r => len r = max) rows) by (inversion RM; auto). subst gd nw.
    change (list_sum (n :: sizes)) with (n + list_sum sizes)%nat in *. cbn [sf_groups].
    set (nw := group + Z.of_nat (n + list_sum sizes)) in *.
    replace (nw <=? group) with false by (symmetry; apply Z.leb_gt; unfold nw; lia).
    cbn [ends]. unfold oget. replace (get_byte (pre ++ (group + Z.of_nat n :: ends (group + Z.of_nat n) sizes) ++ post) (Z.of_nat (len pre))) with (Some (group + Z.of_nat n)).
    2:{ unfold get_byte. rewrite app_length. cbn [app len]. replace (0 <=? Z.of_nat (len pre)) with true by (symmetry; apply Z.leb_le; lia).
        replace (Z.of_nat (len pre) <? _) with true by (symmetry; apply Z.ltb_lt; lia). cbn [andb]. rewrite Nat2Z.id, nth_error_app2 by lia. rewrite Nat.sub_diag. reflexivity. }
    cbn [obind]. cbn [codedR] in V, ST. rewrite enc_steps_app, <- app_assoc in ST. apply valid_steps_app in V. destruct V as [V1 V2].
    destruct (row_run d k first max nsb r P bp w done x f _ B W R1 M N FI V1 ST ltac:(nia)) as (P1 & bp1 & w1 & X1 & X2 & X3 & X4).
    rewrite X1. cbn [obind fst snd Z.eqb negb].
    assert (BL := becomes_len first max nsb f r M N R1). set (row := becomes first max nsb f r) in *.
    set (f1 := last (coded first r) f) in *.
    destruct islong.
    + assert (n = 1%nat) by (specialize (LO eq_refl); inversion LO; auto). subst n.
      destruct (IH rows fuel false f1 (done ++ row) (skipn nsb x) P1 bp1 w1 (group + Z.of_nat 1) (pre ++ [group + Z.of_nat 1]) post bb rest) as (P2 & bp2 & w2 & p2 & f2 & Y1 & Y2 & Y3 & Y4); auto; try lia; try discriminate.
      * rewrite <- app_assoc. reflexivity.
      * intros _. specialize (LO eq_refl). inversion LO; auto.
      * destruct rows; [exact I|]. exact V2.
      * destruct rows; exact X3.
      * rewrite skipn_length. nia.
      * exists P2, bp2, w2, p2, f2. split; [|sp; auto].
        -- rewrite <- app_assoc in Y1. rewrite !app_length in Y1. cbn [len] in Y1. rewrite BL in Y1.
           replace (Z.of_nat (len pre) + 1) with (Z.of_nat (len pre + 1)) by lia.
           etransitivity; [exact Y1|]. cbn [shown]. rewrite spread_cons. fold (becomes first max nsb f r). fold row. cbn [repeat List.concat]. rewrite app_nil_r.
           replace (shown false max f1 rows) with rows by (destruct rows; reflexivity).
           rewrite <- !app_assoc, skipn_skipn_add. repeat f_equal; nia.
        -- cbn [codedR]. rewrite enc_steps_app, app_length. fold f1. replace (codedR false rows) with (List.concat rows) in Y4 by (destruct rows; reflexivity). lia.
    + specialize (SH eq_refl). subst bb. replace (Z.to_nat (group + Z.of_nat n - (group + 1))) with (n - 1)%nat by lia.
      rewrite (copy_run nsb (n - 1) done row (skipn nsb x)) by (auto; rewrite skipn_length; nia). cbn [obind].
      replace (S (n - 1)) with n by lia.
      destruct (IH rows fuel false f1 (done ++ List.concat (repeat row n)) (skipn ((n - 1) * nsb) (skipn nsb x)) P1 bp1 w1 (group + Z.of_nat n) (pre ++ [group + Z.of_nat n]) post (group + Z.of_nat n) rest)
        as (P2 & bp2 & w2 & p2 & f2 & Y1 & Y2 & Y3 & Y4); auto; try lia; try discriminate.
      * rewrite <- app_assoc. reflexivity.
      * destruct rows; [exact I|]. exact V2.
      * destruct rows; exact X3.
      * rewrite !skipn_length. nia.
      * exists P2, bp2, w2, p2, f2. split; [|sp; auto].
        -- rewrite <- app_assoc in Y1. rewrite !app_length in Y1. cbn [len] in Y1. rewrite concat_len, BL in Y1.
           replace (Z.of_nat (len pre) + 1) with (Z.of_nat (len pre + 1)) by lia.
           replace (group + 1 + Z.of_nat (n - 1)) with (group + Z.of_nat n) by lia.
           replace (Z.of_nat (len done + nsb) + Z.of_nat (n - 1) * Z.of_nat nsb) with (Z.of_nat (len done + n * nsb)) by nia.
           etransitivity; [exact Y1|]. cbn [shown]. rewrite spread_cons. fold (becomes first max nsb f r). fold row.
           replace (shown false max f1 rows) with rows by (destruct rows; reflexivity).
           rewrite <- !app_assoc, !skipn_skipn_add.
           assert (EN : (nsb + (n - 1) * nsb = n * nsb)%nat) by (destruct n; [lia|]; cbn [Nat.mul]; rewrite Nat.sub_succ, Nat.sub_0_r; lia).
           replace (nsb + ((n - 1) * nsb + list_sum sizes * nsb))%nat with ((n + list_sum sizes) * nsb)%nat by (rewrite Nat.mul_add_distr_r; lia).
           replace (nsb + (n - 1) * nsb + list_sum sizes * nsb)%nat with ((n + list_sum sizes) * nsb)%nat by (rewrite Nat.mul_add_distr_r; lia). reflexivity.
        -- cbn [codedR]. rewrite enc_steps_app, app_length. fold f1. replace (codedR false rows) with (List.concat rows) in Y4 by (destruct rows; reflexivity). lia.
Qed.

(** ** Giving the bits back *)
Lemma corr_back d : are_bytes d -> forall f ptr used w, 0 <= ptr -> 0 <= used -> 8 * ptr + used <= 8 * Z.of_nat (len d) -> used / 8 <= Z.of_nat f ->
  exists w', corr_loop f d ptr used 0 w = Done (ptr + used / 8, used mod 8, w').
Proof.
  intros B. induction f as [|f IH]; intros ptr used w P U L F; cbn [corr_loop].
  - destruct (Z.ltb_spec used 8) as [X|X]; [|assert (8 / 8 <= used / 8) by (apply Z.div_le_mono; lia); change (8 / 8) with 1 in *; lia].
    exists w. rewrite Z.div_small, Z.mod_small by lia. do 3 f_equal; lia.
  - destruct (Z.ltb_spec used 8) as [X|X].
    + exists w. rewrite Z.div_small, Z.mod_small by lia. do 3 f_equal; lia.
    + destruct (Z.ltb_spec (Z.of_nat (len d) - 1) ptr) as [Y|Y]; [lia|].
      destruct (get_byte_in d ptr ltac:(lia)) as (v & G & _). unfold oget. rewrite G. cbn [obind].
      assert (E1 : used / 8 = (used - 8) / 8 + 1) by (replace used with (used - 8 + 1 * 8) at 1 by lia; rewrite Z.div_add by lia; lia).
      assert (E2 : used mod 8 = (used - 8) mod 8) by (replace used with (used - 8 + 1 * 8) at 1 by lia; rewrite Z.mod_add by lia; lia).
      destruct (IH (ptr + 1) (used - 8) (Z.lor (u32 (w * 2 ^ 8)) v)) as (w' & E); try lia. exists w'. rewrite E, E2. do 3 f_equal. lia.
Qed.

(** ** All of it *)
Definition sizes_ok (islong : bool) (sizes : list nat) : Prop :=
  sizes <> [] /\ (len sizes <= 8)%nat /\ Forall (fun n => 1 <= n)%nat sizes /\ (islong = true -> sizes = [1%nat]).

Lemma scf_exec islong nsb max sizes gain rows post fac : valid_factors max gain rows -> len rows = len sizes -> sizes_ok islong sizes ->
  (max <= nsb)%nat -> (0 < nsb)%nat -> (list_sum sizes * nsb <= len fac)%nat -> (64 <= len fac)%nat ->
  forall s rest, wf s -> enough s -> rest_bits s = enc_factors gain rows ++ rest ->
  exists fac' s', section_data islong (Z.of_nat (list_sum sizes)) nsb max (ends 0 sizes ++ post) gain fac s = Done (0, fac', s') /\
    wf s' /\ rest_bits s' = rest /\ firstn (list_sum sizes * nsb) fac' = all_factors nsb max sizes gain rows /\ len fac' = len fac.
Proof.
  intros (V0 & V1 & V2 & V3) RL (Z1 & Z2 & Z3 & Z4) M N L64 L s rest W E R.
  destruct rows as [|r rows]; [destruct sizes; [congruence|discriminate]|].
  assert (CO : codedR true (r :: rows) = tl (List.concat (r :: rows))).
  { cbn [codedR coded List.concat]. inversion V1 as [|? ? A1 A2]; subst. destruct r as [|v r]; [|reflexivity]. cbn [tl app].
    assert (Q : List.concat rows = []); [|rewrite Q; reflexivity]. clear -A2. induction rows as [|a rows IH]; [reflexivity|]. inversion A2; subst. destruct a; [|discriminate]. cbn. auto. }
  unfold enc_factors in R. rewrite <- CO in R, V3.
  assert (W0 := W). destruct W as (B & P0 & PS & C0 & C). destruct (show_start s W0 E) as (k & X1 & X2 & X3).
  unfold section_data. rewrite X1. cbn [obind]. set (d := r_data s) in *. set (P := Z.to_nat (r_ptr s)) in *.
  set (facz := repeat 0 64 ++ skipn 64 fac).
  assert (FZ : len facz = len fac) by (unfold facz; rewrite app_length, repeat_length, skipn_length; lia).
  assert (ST : exists beyond, Stream d P (7 - r_pos s) (enc_steps gain (codedR true (r :: rows)) ++ rest ++ beyond)).
  { exists (skipn (Z.to_nat (r_cnt s)) (skipn (Z.to_nat (bitpos s)) (bytes_bits d))). unfold Stream. rewrite X3.
    rewrite app_assoc. rewrite <- R. unfold rest_bits. fold d. symmetry. apply firstn_skipn. }
  destruct ST as (beyond & ST).
  destruct (groups_run d k islong max nsb (ends 0 sizes ++ post) (Z.of_nat (list_sum sizes)) B M N sizes (r :: rows) 9 true gain [] facz P (7 - r_pos s) _ 0 [] post 0 (rest ++ beyond)
    X2 Z3 RL V1 eq_refl eq_refl ltac:(lia)) as (P1 & bp1 & w1 & p1 & f1 & Y1 & Y2 & Y3 & Y4); auto.
  { intros H. rewrite (Z4 H). repeat constructor. }
  { intros _. split; [lia|]. cbn [hd]. inversion V1 as [|? ? A1 A2]; subst. destruct r as [|v r]; [reflexivity|]. cbn [hd List.concat app] in V2 |- *. apply V2. cbn. lia. }
  { lia. }
  cbn [len app] in Y1. change (Z.of_nat 0) with 0 in Y1.
  replace (r_ptr s + Z.of_nat k) with (Z.of_nat (P + k)) by lia.
  match goal with |- context [sf_groups 9 d islong ?a nsb max ?b 0 0 0 true ?st] =>
    replace (sf_groups 9 d islong a nsb max b 0 0 0 true st) with
     (@Done (Z * fst_) (0, ((Z.of_nat (P1 + k), bp1, w1), spread nsb sizes (shown true max gain (r :: rows)) ++ skipn (list_sum sizes * nsb) facz, p1, f1))) end.
  cbn [obind Z.eqb negb]. replace (Z.of_nat (P1 + k) - Z.of_nat k) with (Z.of_nat P1) by lia.
  destruct Y2 as (_ & _ & _ & _ & BP0 & _). set (enc := enc_steps gain (codedR true (r :: rows))) in *.
  assert (BP : 0 <= bitpos s) by (unfold bitpos; lia).
  assert (RC : (len enc + len rest = Z.to_nat (r_cnt s))%nat).
  { assert (Q := f_equal (@len bool) R). unfold rest_bits in Q. rewrite firstn_length, skipn_length, bytes_bits_length, app_length in Q. fold d in Q. lia. }
  assert (EB : bitpos s = 8 * Z.of_nat P + (7 - r_pos s)) by (unfold bitpos; lia).
  destruct (corr_back d B (Z.to_nat (bp1 / 8)) (Z.of_nat P1) bp1 w1 ltac:(lia) BP0 ltac:(lia)) as (w2 & E2).
  { assert (0 <= bp1 / 8) by (apply Z.div_pos; lia). lia. }
  unfold corr. rewrite E2. cbn [obind].
  assert (DM := Z.div_mod bp1 8 ltac:(lia)). assert (MB := Z.mod_pos_bound bp1 8 ltac:(lia)). assert (0 <= bp1 / 8) by (apply Z.div_pos; lia).
  set (s' := mkR _ _ _ _). exists (spread nsb sizes (shown true max gain (r :: rows)) ++ skipn (list_sum sizes * nsb) facz), s'.
  assert (BS : bitpos s' = bitpos s + Z.of_nat (len enc)) by (unfold s', bitpos; cbn [r_ptr r_pos]; unfold bitpos in EB; lia).
  assert (CS : r_cnt s' = r_cnt s - Z.of_nat (len enc)) by (unfold s'; cbn [r_cnt]; unfold bitpos in EB; lia).
  split; [reflexivity|]. split.
  { unfold wf. rewrite BS, CS. unfold s'; cbn [r_data r_ptr r_pos]. fold d. sp; auto; try lia. }
  split.
  { unfold rest_bits. rewrite CS, BS. unfold s' at 1; cbn [r_data].
    replace (Z.to_nat (r_cnt s - Z.of_nat (len enc))) with (Z.to_nat (r_cnt s) - len enc)%nat by lia.
    replace (Z.to_nat (bitpos s + Z.of_nat (len enc))) with (Z.to_nat (bitpos s) + len enc)%nat by lia.
    rewrite <- skipn_skipn_add. rewrite firstn_skipn_comm. replace (len enc + (Z.to_nat (r_cnt s) - len enc))%nat with (Z.to_nat (r_cnt s)) by lia.
    change (skipn (len enc) (rest_bits s) = rest). rewrite R. rewrite skipn_app, skipn_all, Nat.sub_diag. reflexivity. }
  assert (SL : len (spread nsb sizes (shown true max gain (r :: rows))) = (list_sum sizes * nsb)%nat).
  { assert (Q : Forall (fun x => len x <= nsb)%nat (shown true max gain (r :: rows))).
    { cbn [shown]. inversion V1 as [|? ? A1 A2]; subst. constructor; [destruct (len r) eqn:?; cbn [len]; lia|]. eapply Forall_impl; [|exact A2]. cbn. intros; lia. }
    assert (QL : len (shown true max gain (r :: rows)) = len sizes) by (cbn [shown len] in *; lia).
    clear -Q QL. revert Q QL. generalize (shown true max gain (r :: rows)). induction sizes as [|n sizes IH]; intros l Q QL; [destruct l; reflexivity|].
    destruct l as [|a l]; [discriminate|]. inversion Q; subst. cbn [spread]. rewrite app_length, concat_len, IH by (auto; cbn in QL; lia).
    change (list_sum (n :: sizes)) with (n + list_sum sizes)%nat. unfold pad. rewrite app_length, repeat_length. nia. }
  split; [|rewrite app_length, SL, skipn_length; lia].
  rewrite firstn_app, SL, Nat.sub_diag, firstn_O, app_nil_r, firstn_all2 by lia. unfold all_factors, rows_of. cbn [shown tl]. destruct max; reflexivity.
Qed.
