(** * Properties C107 and C108: flexible loudspeaker layouts, and where channels are placed *)

From Coq Require Import ZArith List Lia Bool.
From Verif Require Import Bits BitBuf BitWrite Prog Escape Spec_Asi Cicp Config Spec_Flex Spec_ConfigFull
  Lem_MhasProps Lem_ConfigSafe Leaf Wlp Loops Wp Lem_Flex Displace Lem_Displace.
Import ListNotations.
Open Scope Z_scope.

(** C107 for a reference layout of 1 to 20 loudspeakers by direction, or by number where the
    number is one the pair flag of which is found ([plain_pos]), read into a table without a
    direction to the right left in it ([unused]): exactly its bits are read and every
    loudspeaker is stored, the second of a pair after the first on the other side. *)
Theorem C107_flexible_layout_partial : forall fine xs l s rest,
  lay_ok l -> unused l -> (1 <= length (speakers xs) <= 20)%nat ->
  Forall (valid_flexspk fine) xs -> Forall (fun x => plain_pos (fst x)) xs ->
  wf s -> rest_bits s = enc_flex_layout fine xs ++ rest ->
  exists l' s', exec (ref_layout l) s = Done ((0, l'), s') /\ rest_bits s' = rest /\
    l_type l' = 2 /\ l_num l' = Z.of_nat (length (speakers xs)) /\ holds_flex fine xs l'.
Proof.
  intros fine xs l s rest O U L V P W E.
  destruct (ref_flex_run fine xs l rest O U L V P) as (l' & R & A & B & D & _). rewrite <- E in R.
  destruct (exec_of_run _ _ _ _ W R) as (s' & X & _ & Y). exists l', s'. auto.
Qed.
Print Assumptions C107_flexible_layout_partial.

(** The same for the layout of a group of channels, of up to 24 loudspeakers; [refi] is the
    reference layout.  The check at the end compares the number of loudspeakers of the named
    layout left over in the entry. *)
Theorem C107_flexible_group_partial : forall fine xs l nch refi s rest,
  lay_ok l -> unused l -> (1 <= length (speakers xs) <= 24)%nat ->
  Forall (valid_flexspk fine) xs -> Forall (fun x => plain_pos (fst x)) xs -> 0 <= refi <= 20 ->
  num_ls (l_idx l) = nch \/ num_ls (l_idx l) <= num_ls refi ->
  wf s -> rest_bits s = enc_flex_layout fine xs ++ rest ->
  exists l' s', exec (group_layout l nch refi) s = Done ((0, l'), s') /\ rest_bits s' = rest /\
    l_type l' = 2 /\ l_num l' = Z.of_nat (length (speakers xs)) /\ holds_flex fine xs l'.
Proof.
  intros fine xs l nch refi s rest O U L V P R C W E.
  destruct (group_flex_run fine xs l nch refi rest O U L V P R C) as (l' & X & A & B & D & _). rewrite <- E in X.
  destruct (exec_of_run _ _ _ _ W X) as (s' & Y & _ & Z0). exists l', s'. auto.
Qed.
Print Assumptions C107_flexible_group_partial.

Definition lay0 : layout := mkLay 0 0 0 (repeat 0 24) 0 (repeat (mkFx 0 0 0 0 0 0 0 0) 32).
Definition spk5 : list flexspk := [(ByAngles 3 (-4) 7 false, true); (ByIndex 2, false); (ByAngles 1 0 (-22) true, false); (ByIndex 10, false)].
Example C107_case : lay_ok lay0 /\ unused lay0 /\ length (speakers spk5) = 5%nat /\
  Forall (valid_flexspk false) spk5 /\ Forall (fun x => plain_pos (fst x)) spk5.
Proof.
  split; [constructor; cbn; lia|]. split; [repeat constructor; cbn; discriminate|]. split; [reflexivity|].
  split; repeat constructor; cbn; unfold seen_aside; try lia; try discriminate; auto.
Qed.

(** A loudspeaker by number that is neither in the middle nor one of 1 to 7 and 9 to 19: the
    flag whether it is a pair is left in the stream and taken for what comes next. *)
Theorem C107_index_refuted : forall fine i l s rest,
  lay_ok l -> 0 <= i <= 42 -> ~ seen_aside i -> middle (azimuth fine (ByIndex i)) = false ->
  wf s -> rest_bits s = enc_flex_layout fine [(ByIndex i, false)] ++ rest ->
  exists l' s', exec (ref_layout l) s = Done ((0, l'), s') /\ rest_bits s' = flag false ++ rest.
Proof.
  intros fine i l s rest O I N M W E.
  destruct (ref_index_run fine i l rest O I N M) as (l' & R). rewrite <- E in R.
  destruct (exec_of_run _ _ _ _ W R) as (s' & X & _ & Y). exists l', s'. auto.
Qed.
Print Assumptions C107_index_refuted.

(** These are the left front loudspeaker and 21 others. *)
Example C107_index_case : filter (fun n => let i := Z.of_nat n in
    negb ((1 <=? i) && (i <=? 19) && negb (i =? 8)) && negb (middle (azimuth true (ByIndex i)))) (seq 0 43)
  = [0; 8; 20; 21; 23; 24; 26; 27; 28; 30; 31; 32; 33; 34; 35; 36; 37; 38; 39; 40; 41; 42]%nat.
Proof. reflexivity. Qed.

(** After a layout that begins with a loudspeaker on the right, rear centre is not read as
    it was sent: a bit more than was sent is read, and tells whether it is an LFE. *)
Theorem C107_again_refuted : forall fine xs class el az lfe l s b rest,
  lay_ok l -> holds_flex fine xs l -> nth_error (speakers xs) 0 = Some (ByAngles class el az lfe, false) ->
  -180 < step fine * az < 0 ->
  wf s -> rest_bits s = enc_flex_layout true [(ByAngles 0 0 180 false, false)] ++ flag b ++ rest ->
  exists l' s' f, exec (ref_layout l) s = Done ((0, l'), s') /\ rest_bits s' = rest /\
    nth_error (l_flex l') 0 = Some f /\ f_lfe f = b2z b.
Proof.
  intros fine xs class el az lfe l s b rest O [_ H] HS HA W E.
  destruct (Forall2_nth _ _ _ H 0%nat _ HS) as (f0 & Hf & D).
  assert (Hf0 : nth_error (l_flex l) 0 = Some f0).
  { destruct (speakers xs); [discriminate|]. destruct (l_flex l); exact Hf. }
  assert (A1 : f_azdir f0 = 1).
  { destruct D as (_ & _ & _ & _ & D & _). cbn [snd] in D. rewrite D.
    - destruct (Z.ltb_spec az 0); [reflexivity|]. unfold step in HA. destruct fine; lia.
    - unfold middle. apply orb_false_iff. rewrite !Z.eqb_neq. lia. }
  destruct (ref_stale_run l f0 b rest O Hf0 A1) as (l' & f & R & F1 & F2). rewrite <- E in R.
  destruct (exec_of_run _ _ _ _ W R) as (s' & X & _ & Y). exists l', s', f. auto.
Qed.
Print Assumptions C107_again_refuted.

(** An azimuth of 181 to 255 degrees is not refused. *)
Theorem C107_angle_refuted : forall a l s rest, lay_ok l -> unused l -> 180 < a < 256 ->
  wf s -> rest_bits s = bits_of 2 2 ++ esc_enc 5 8 16 0 ++ flag true ++ flag false ++ bits_of 2 0 ++ bits_of 8 a ++ flag false ++ rest ->
  exists l' s' f, exec (ref_layout l) s = Done ((0, l'), s') /\ rest_bits s' = rest /\
    nth_error (l_flex l') 0 = Some f /\ f_az f = a.
Proof.
  intros a l s rest O U A W E. destruct (ref_angle_run l a rest O U A) as (l' & f & R & F1 & F2). rewrite <- E in R.
  destruct (exec_of_run _ _ _ _ W R) as (s' & X & _ & Y). exists l', s', f. auto.
Qed.
Print Assumptions C107_angle_refuted.

(** A flexible layout is taken for the named layout that has the number of its loudspeakers,
    whatever they are: five anywhere for layout 5, which is 5.0; eight for none. *)
Theorem C107_name_refuted : forall fine xs l s rest,
  lay_ok l -> unused l -> (1 <= length (speakers xs) <= 20)%nat ->
  Forall (valid_flexspk fine) xs -> Forall (fun x => plain_pos (fst x)) xs ->
  wf s -> rest_bits s = enc_flex_layout fine xs ++ rest ->
  exists l' s', exec (ref_layout l) s = Done ((0, l'), s') /\ l_idx l' = Z.of_nat (length (speakers xs)).
Proof.
  intros fine xs l s rest O U L V P W E.
  destruct (ref_flex_run fine xs l rest O U L V P) as (l' & R & A & B & D & F & _). rewrite <- E in R.
  destruct (exec_of_run _ _ _ _ W R) as (s' & X & _ & Y). exists l', s'. auto.
Qed.
Print Assumptions C107_name_refuted.
Example C107_name_case : map (fun x => azimuth false (fst x)) spk5 = [35; 0; -110; 180] /\
  map (fun g : Z * Z * Z => fst (fst g)) (layout_spk 5) = [30; -30; 0; 110; -110] /\ num_ls 8 = 0.
Proof. repeat split; reflexivity. Qed.

(** C108 for the channels of a group whose layout is flexible and gives them by number: the
    displacement starts from the loudspeaker of that number. *)
Theorem C108_flexible_index_partial : forall fine xs l grp k i bs,
  holds_reflay (RFlex fine xs) l -> l_idx l = 0 -> lay_dim l -> Forall (fun v => 0 <= v) (l_spk l) ->
  (length (speakers xs) <= 24)%nat -> nth_error (speakers xs) k = Some (ByIndex i, false) -> 0 <= i <= 42 ->
  runA (channel_pos l grp (Z.of_nat k) (Z.of_nat (length (speakers xs)))) bs = Done (Some (fst (ls_geo i)), bs).
Proof. intros fine xs l grp k i bs. apply flex_index_pos. Qed.
Print Assumptions C108_flexible_index_partial.

(** The second of such a pair starts from the first one's place. *)
Theorem C108_pair_refuted : forall fine xs l grp k i bs,
  holds_reflay (RFlex fine xs) l -> l_idx l = 0 -> lay_dim l -> Forall (fun v => 0 <= v) (l_spk l) ->
  (length (speakers xs) <= 24)%nat -> nth_error (speakers xs) k = Some (ByIndex i, true) -> 0 <= i <= 42 ->
  runA (channel_pos l grp (Z.of_nat k) (Z.of_nat (length (speakers xs)))) bs = Done (Some (fst (ls_geo i)), bs).
Proof. intros fine xs l grp k i bs. apply flex_index_pos. Qed.
Print Assumptions C108_pair_refuted.

Definition pair4 : list flexspk := [(ByIndex 4, true); (ByIndex 2, false)].
Definition lay4 : layout := mkLay 2 0 3 (repeat 0 24) 1
  (mkFx 1 4 0 0 0 0 0 0 :: mkFx 1 4 0 0 0 0 1 0 :: mkFx 1 2 0 0 0 0 0 0 :: repeat (mkFx 0 0 0 0 0 0 0 0) 29).
Example C108_case : holds_reflay (RFlex true pair4) lay4 /\ l_idx lay4 = 0 /\ lay_dim lay4 /\
  Forall (fun v => 0 <= v) (l_spk lay4) /\
  nth_error (speakers pair4) 1 = Some (ByIndex 4, true) /\ nth_error (speakers pair4) 2 = Some (ByIndex 2, false) /\
  fst (ls_geo 4) = (110, 0).
Proof.
  split; [split; [reflexivity|split; [reflexivity|split; [reflexivity|repeat constructor]]]|].
  split; [reflexivity|]. split; [constructor; reflexivity|]. split; [repeat constructor; discriminate|]. repeat split.
Qed.

(** Every channel of a group with a named layout starts from the front. *)
Theorem C108_named_refuted : forall i l grp k bs, holds_reflay (RNamed i) l -> 1 <= i <= 20 ->
  runA (channel_pos l grp k (num_ls i)) bs = Done (Some (0, 0), bs).
Proof. exact named_pos. Qed.
Print Assumptions C108_named_refuted.

(** Every channel of a group with a listed layout, and every one by direction, starts from
    the left front loudspeaker (in entries not used before). *)
Theorem C108_listed_refuted : forall vs l grp k bs, holds_reflay (RListed vs) l -> l_idx l = 0 -> lay_dim l ->
  Forall (fun v => 0 <= v) (l_spk l) -> (length vs <= 24)%nat -> (k < length vs)%nat ->
  Forall (fun f => f_idx f = 0) (l_flex l) ->
  runA (channel_pos l grp (Z.of_nat k) (Z.of_nat (length vs))) bs = Done (Some (30, 0), bs).
Proof.
  intros vs l grp k bs (_ & N & _) I D F L K U. rewrite <- N. apply first_pos; auto; try lia.
  intros f Hf. exact (nth_error_Forall _ _ _ _ U Hf).
Qed.
Print Assumptions C108_listed_refuted.
Theorem C108_angles_refuted : forall fine xs l grp k class el az lfe m f bs,
  holds_reflay (RFlex fine xs) l -> l_idx l = 0 -> lay_dim l -> Forall (fun v => 0 <= v) (l_spk l) ->
  (length (speakers xs) <= 24)%nat -> nth_error (speakers xs) k = Some (ByAngles class el az lfe, m) ->
  nth_error (l_flex l) k = Some f -> f_idx f = 0 ->
  runA (channel_pos l grp (Z.of_nat k) (Z.of_nat (length (speakers xs)))) bs = Done (Some (30, 0), bs).
Proof.
  intros fine xs l grp k class el az lfe m f bs (_ & N & _) I D F L K Hf F0. rewrite <- N.
  apply nth_err_len in K. apply first_pos; auto; try lia. intros g Hg. congruence.
Qed.
Print Assumptions C108_angles_refuted.

Example C108_named_case : let l := mkLay 0 2 0 (repeat 0 24) 0 (repeat (mkFx 0 0 0 0 0 0 0 0) 32) in
  holds_reflay (RNamed 2) l /\ layout_spk 2 = [(30, 0, 0); (-30, 0, 0)].
Proof. repeat split. Qed.
Example C108_listed_case : let l := mkLay 1 0 2 ([1; 10] ++ repeat 0 22) 0 (repeat (mkFx 0 0 0 0 0 0 0 0) 32) in
  holds_reflay (RListed [1; 10]) l /\ l_idx l = 0 /\ lay_dim l /\ Forall (fun v => 0 <= v) (l_spk l) /\
  Forall (fun f => f_idx f = 0) (l_flex l) /\ map (fun i => fst (ls_geo i)) [1; 10] = [(-30, 0); (180, 0)].
Proof.
  split; [repeat split|]. split; [reflexivity|]. split; [constructor; reflexivity|]. split; [repeat constructor; discriminate|].
  split; [repeat constructor|reflexivity].
Qed.
