(** * Props_HoaVec: the vectors of HOA frames (C122) *)

From Coq Require Import ZArith List Lia Bool.
From Verif Require Import Bits BitBuf Prog Wp Frame Asi Hoa Lem_Hoa Lem_ConfigProps HoaFrm Spec_HoaFrm Lem_HoaFrm HoaVec Spec_HoaVec Lem_HoaVec Props_HoaFrm.
Import ListNotations.
Open Scope Z_scope.

(** C122, vectors of 8-bit words: up to order 5, when the vector signals are the first channels,
    the decoder uses for every one of them the words sent for it, and reads nothing more. *)
Theorem C122_words_partial : forall h0 h sc sc' s v wss b rest,
  0 <= h_ntc h0 <= 49 -> wf sc -> exec (fill_config h0) sc = Done (Ok h, sc') -> h_order h <= 5 ->
  length (f_ch s) = 49%nat -> marks_ok s -> vstate_ok v -> (length wss <= 16)%nat ->
  f_vec s = map (fun i => Z.of_nat i + 1) (seq 0 (length wss)) ->
  (forall i ws, nth_error wss i = Some ws -> words_ok h s i ws /\
     exists k, nth_error (f_ch s) i = Some k /\ mode_of (k_q k) = Some M8) ->
  wf b -> rest_bits b = concat (map (fun '(i, ws) => word_bits h s i ws) (combine (seq 0 (length wss)) wss)) ++ rest ->
  exists v' b', exec (vec_all h s (f_vec s) 0 v) b = Done (Ok v', b') /\ wf b' /\ rest_bits b' = rest /\ vstate_ok v' /\
    forall i ws, nth_error wss i = Some ws -> used_words h v' i = ws.
Proof.
  intros h0 h sc sc' s v wss b rest Hn Wc Ec H5 Lc Hm Hv Hl Hf Hok W Eb.
  pose proof (fill_config_exec h0 sc h sc' (proj1 Hn) Wc Ec) as Ho.
  destruct (all_words h s wss 0 v rest (accepted_dims h0 h Ho H5) Hm Hv Lc Hl) as (v' & E & Hv' & _ & V & _).
  - intros i ws Ei. destruct (Hok i ws Ei) as (A & k & B & C). split; [exact A|]. exists k. split; [exact B|].
    unfold mode_of in C. destruct (q_nq (k_q k) =? 4); [discriminate|]. destruct (Z.eqb_spec (q_nq (k_q k)) 5); [assumption|].
    destruct (6 <=? q_nq (k_q k)); discriminate.
  - rewrite Hf. match type of E with runA ?p _ = _ => pose proof (exec_refines p b W) as A end. rewrite Eb, E in A.
    destruct A as (b' & E' & W' & R'). exists v', b'. auto.
Qed.
Print Assumptions C122_words_partial.

(** C122, codebook vectors: up to order 5, when the only vector signal is the first channel and
    its indices also fit the codebooks stored for the channels with their numbers. *)
Theorem C122_book_partial : forall h0 h sc sc' s v k w l b rest,
  0 <= h_ntc h0 <= 49 -> wf sc -> exec (fill_config h0) sc = Done (Ok h, sc') -> h_order h <= 5 ->
  length (f_ch s) = 49%nat -> marks_ok s -> vstate_ok v -> f_vec s = [1] ->
  nth_error (f_ch s) 0 = Some k -> (1 <= length l <= 49)%nat ->
  forall book, mode_of (k_q k) = Some (MBook book (Z.of_nat (length l))) -> book_vec_ok h book w l ->
  (forall j o i g, nth_error (f_ch s) j = Some o -> nth_error l j = Some (i, g) ->
     0 <= q_cb (k_q o) <= 7 /\ within (book_max h (q_cb (k_q o))) i) ->
  wf b -> rest_bits b = book_vec_bits h book w l ++ rest ->
  exists v' b', exec (vec_all h s (f_vec s) 0 v) b = Done (Ok v', b') /\ wf b' /\ rest_bits b' = rest /\ vstate_ok v' /\
    used_book s v' 0 = (book, if Z.of_nat (length l) =? 1 then nth 0 (v_w v) 0 else w, l) /\
    forall j, (j < Z.to_nat (h_vvl h))%nat ->
       nth j (nth 0 (v_add v') []) 0 = if unsent s 0 (Z.to_nat (h_off h) + j) then 0 else 1.
Proof.
  intros h0 h sc sc' s v k w l b rest Hn Wc Ec H5 Lc Hm Hv Hf Ek Hl book Hk Hb Hall W Eb.
  pose proof (fill_config_exec h0 sc h sc' (proj1 Hn) Wc Ec) as Ho.
  assert (K : q_nq (k_q k) = 4 /\ q_cb (k_q k) = book /\ q_nvi (k_q k) = Z.of_nat (length l)).
  { unfold mode_of in Hk. destruct (Z.eqb_spec (q_nq (k_q k)) 4); [injection Hk; auto|].
    destruct (q_nq (k_q k) =? 5); [discriminate|]. destruct (6 <=? q_nq (k_q k)); discriminate. }
  destruct K as (K1 & <- & K3).
  destruct (book_run h s v k w l rest (accepted_conf h0 h Hn Ho) (accepted_dims h0 h Ho H5) Hm Hv Lc Ek K3 Hl Hb Hall) as (v' & E & Hv' & U & A' & _).
  assert (E2 : runA (vec_all h s (f_vec s) 0 v) (book_vec_bits h (q_cb (k_q k)) w l ++ rest) = Done (Ok v', rest)).
  { rewrite Hf. cbn [vec_all]. change (1 - 1) with 0. rewrite (runA_aget _ _ k) by (try lia; exact Ek).
    rewrite K1. change (4 =? 4) with true. cbv iota. change (Z.of_nat 0) with 0. rewrite runA_bind, E. reflexivity. }
  pose proof (exec_refines (vec_all h s (f_vec s) 0 v) b W) as A. rewrite Eb, E2 in A.
  destruct A as (b' & E' & W' & R'). exists v', b'. split; [exact E'|]. split; [exact W'|]. split; [exact R'|]. split; [exact Hv'|]. split; [exact U|exact A'].
Qed.
Print Assumptions C122_book_partial.

(** C122, illegal vectors: when the first channel is the first vector signal and its first index
    lies beyond its codebook, the frame is refused. *)
Theorem C122_beyond_partial : forall h0 h sc sc' s v k w i g l vs b rest m,
  0 <= h_ntc h0 <= 49 -> wf sc -> exec (fill_config h0) sc = Done (Ok h, sc') ->
  length (f_ch s) = 49%nat -> vstate_ok v -> nth_error (f_ch s) 0 = Some k -> (S (length l) <= 49)%nat ->
  forall book, mode_of (k_q k) = Some (MBook book (Z.of_nat (S (length l)))) -> 0 <= book <= 7 -> 0 <= w < 256 ->
  (forall i' g', In (i', g') ((i, g) :: l) -> 1 <= i' <= 2 ^ book_width h book /\ 0 <= g' <= 1) ->
  book_max h book = Some m -> m < i ->
  wf b -> rest_bits b = book_vec_bits h book w ((i, g) :: l) ++ rest ->
  exists b', exec (vec_all h s (1 :: vs) 0 v) b = Done (Er E_VVEC_IDX, b').
Proof.
  intros h0 h sc sc' s v k w i g l vs b rest m Hn Wc Ec Lc Hv Ek Hl book Hk Hb Hw Hok Hm Hi W Eb.
  pose proof (fill_config_exec h0 sc h sc' (proj1 Hn) Wc Ec) as Ho.
  assert (K : q_nq (k_q k) = 4 /\ q_cb (k_q k) = book /\ q_nvi (k_q k) = Z.of_nat (S (length l))).
  { unfold mode_of in Hk. destruct (Z.eqb_spec (q_nq (k_q k)) 4); [injection Hk; auto|].
    destruct (q_nq (k_q k) =? 5); [discriminate|]. destruct (6 <=? q_nq (k_q k)); discriminate. }
  destruct K as (K1 & <- & K3).
  pose proof (book_beyond h s v k w i g l rest m (accepted_conf h0 h Hn Ho) Hv Lc Ek K3 Hl Hb Hw Hok Hm Hi) as E.
  assert (E2 : runA (vec_all h s (1 :: vs) 0 v) (book_vec_bits h (q_cb (k_q k)) w ((i, g) :: l) ++ rest) = Done (Er E_VVEC_IDX, rest)).
  { cbn [vec_all]. change (1 - 1) with 0. rewrite (runA_aget _ _ k) by (try lia; exact Ek).
    rewrite K1. change (4 =? 4) with true. cbv iota. change (Z.of_nat 0) with 0. rewrite runA_bind, E. reflexivity. }
  pose proof (exec_refines (vec_all h s (1 :: vs) 0 v) b W) as A. rewrite Eb, E2 in A. destruct A as (b' & E' & _). exists b'. exact E'.
Qed.
Print Assumptions C122_beyond_partial.
(** An accepted configuration of order 1 with three channels, two of them additional. *)
Definition conf1_bits : list bool :=
  bits_of 3 1 ++ [false; false] ++ bits_of 3 1 ++ [true] ++ bits_of 3 0 ++ [false] ++ bits_of 2 0 ++ bits_of 3 0 ++
  bits_of 2 0 ++ bits_of 1 1 ++ bits_of 2 1 ++ bits_of 2 1 ++ bits_of 4 8 ++ bits_of 2 0 ++ bits_of 2 0.
Definition conf1 : hoac :=
  match runA (fill_config (hoa_in 3)) conf1_bits with Done (Ok h, _) => h | _ => hoa_in 3 end.
Definition hvs0 : hvs := mkHv (repeat 0 128) (repeat (repeat 0 128) 16) (repeat 0 49) (repeat (repeat 0 49) 16) (repeat (repeat 0 49) 16).
Definition ambient := [mkChan RNone 0 1 false].
Lemma vrows {A} (x : A) n m : rows n m (repeat (repeat x m) n).
Proof. split; [apply repeat_length|]. intros r Hr. apply repeat_spec in Hr. subst r. apply repeat_length. Qed.
Lemma hvs0_ok : vstate_ok hvs0.
Proof. split; [reflexivity|]. split; [apply vrows|]. split; [reflexivity|]. split; apply vrows. Qed.
Lemma conf1_accepted : exists sc', exec (fill_config (hoa_in 3)) (fresh (pack (conf1_bits ++ repeat false 16))) = Done (Ok conf1, sc').
Proof. eexists. vm_compute. reflexivity. Qed.
(** Such an index can be sent: codebook 1 has 34 entries and indices of 6 bits. *)
Example C122_beyond_case : book_max conf1 1 = Some 34 /\ 1 <= 35 <= 2 ^ book_width conf1 1 /\
  mode_of (mkQ 4 1 1 0 0) = Some (MBook 1 1).
Proof. split; [reflexivity|]. split; [cbn; lia|reflexivity]. Qed.
Lemma frame1_ok r1 r2 : role_legal conf1 true (mkHc 0 0 0 q0 0 0 0 0) r1 -> role_legal conf1 true (mkHc 0 0 0 q0 0 0 0 0) r2 ->
  frame_ok conf1 true hfs0 [mkChan r1 0 1 false; mkChan r2 0 1 false] ambient.
Proof.
  intros H1 H2. split; [reflexivity|]. split; [reflexivity|]. split.
  - intros [|[|[|i]]] c o E1 E2; try discriminate E1; injection E1 as <-; injection E2 as <-; unfold amp_ok; cbn [c_role c_amp c_gain];
      change (h_gcb conf1) with 2; change (amp_off conf1) with 3; (split; [assumption|cbn; lia]).
  - intros c [<-|[]]. unfold amp_ok. cbn [c_amp c_gain]. change (h_gcb conf1) with 2. change (amp_off conf1) with 3. cbn. lia.
Qed.

(** Side information and vectors: both cases arise. *)
Definition s_words : hfs :=
  mkHf (put (put (f_ch hfs0) 0 (mkHc 1 0 0 (mkQ 5 0 0 0 0) 0 0 1 0)) 1 (mkHc 1 0 0 (mkQ 5 0 0 0 0) 0 0 1 0))
    (f_pt hfs0) (f_pq hfs0) (f_new hfs0) (f_fade hfs0) (f_nontr hfs0) [1; 2] [].
Definition s_book : hfs :=
  mkHf (put (f_ch hfs0) 0 (mkHc 1 0 0 (mkQ 4 0 2 0 0) 0 0 1 0))
    (f_pt hfs0) (f_pq hfs0) (f_new hfs0) (f_fade hfs0) (f_nontr hfs0) [1] [].
Example C122_case : h_order conf1 <= 5 /\ marks_ok s_words /\ vstate_ok hvs0 /\
  words_ok conf1 s_words 0 [1; 2; 3; 4] /\ words_ok conf1 s_words 1 [255; 128; 0; 7] /\
  (exists v' b', exec (vec_all conf1 s_words (f_vec s_words) 0 hvs0)
     (fresh (pack (word_bits conf1 s_words 0 [1; 2; 3; 4] ++ word_bits conf1 s_words 1 [255; 128; 0; 7]))) = Done (Ok v', b') /\
     used_words conf1 v' 1 = [255; 128; 0; 7]) /\
  book_vec_ok conf1 0 17 [(5, 1); (900, 0)] /\
  exists v' b', exec (vec_all conf1 s_book (f_vec s_book) 0 hvs0)
     (fresh (pack (book_vec_bits conf1 0 17 [(5, 1); (900, 0)]))) = Done (Ok v', b') /\
     used_book s_book v' 0 = (0, 17, [(5, 1); (900, 0)]).
Proof.
  split; [vm_compute; discriminate|]. split; [repeat split|]. split; [exact hvs0_ok|]. split; [|split; [|split; [|split]]].
  - split; [reflexivity|]. intros [|[|[|[|j]]]] Hj; cbn in *; try lia; split; try lia; discriminate.
  - split; [reflexivity|]. intros [|[|[|[|j]]]] Hj; cbn in *; try lia; split; try lia; discriminate.
  - do 2 eexists. split; vm_compute; reflexivity.
  - split; [lia|]. split; [lia|]. intros i g [E|[E|[]]]; injection E as <- <-; cbn; lia.
  - do 2 eexists. split; vm_compute; reflexivity.
Qed.

(** C122 is false otherwise.  A frame whose only vector signal is the second channel: the words
    used for it are not those sent. *)
Theorem C122_second_channel_refuted : exists ws cs b s' v' b',
  (exists sc', exec (fill_config (hoa_in 3)) (fresh (pack (conf1_bits ++ repeat false 16))) = Done (Ok conf1, sc')) /\
  frame_ok conf1 true hfs0 cs ambient /\ map c_role cs = [RDir 1; RVec false (Some M8)] /\ wf b /\
  (exists rest, rest_bits b = frame_bits conf1 true cs ambient ++ word_bits conf1 s' 1 ws ++ rest) /\
  exec (hoa_front conf1 hfs0 hvs0) b = Done (Ok (s', v'), b') /\ words_ok conf1 s' 1 ws /\
  used_words conf1 v' 1 <> ws.
Proof.
  exists [1; 2; 3; 4], [mkChan (RDir 1) 0 1 false; mkChan (RVec false (Some M8)) 0 1 false].
  exists (fresh (pack (frame_bits conf1 true [mkChan (RDir 1) 0 1 false; mkChan (RVec false (Some M8)) 0 1 false] ambient ++
     concat (map (wbits 8) [1; 2; 3; 4]) ++ repeat false 8))).
  do 3 eexists. split; [exact conf1_accepted|]. split; [apply frame1_ok; cbn; lia|]. split; [reflexivity|]. split; [apply wf_pack|].
  split; [|split; [vm_compute; reflexivity|]].
  - eexists. vm_compute. reflexivity.
  - split; [|vm_compute; discriminate]. split; [reflexivity|]. intros [|[|[|[|j]]]] Hj; cbn in *; try lia; split; try lia; discriminate.
Qed.
Print Assumptions C122_second_channel_refuted.

(** Two vector signals with one codebook entry each: the first is given the entry of the second. *)
Theorem C122_two_books_refuted : exists l1 l2 cs b s' v' b',
  (exists sc', exec (fill_config (hoa_in 3)) (fresh (pack (conf1_bits ++ repeat false 16))) = Done (Ok conf1, sc')) /\
  frame_ok conf1 true hfs0 cs ambient /\ map c_role cs = [RVec false (Some (MBook 0 1)); RVec false (Some (MBook 0 1))] /\ wf b /\
  book_vec_ok conf1 0 0 l1 /\ book_vec_ok conf1 0 0 l2 /\
  (exists rest, rest_bits b = frame_bits conf1 true cs ambient ++ book_vec_bits conf1 0 0 l1 ++ book_vec_bits conf1 0 0 l2 ++ rest) /\
  exec (hoa_front conf1 hfs0 hvs0) b = Done (Ok (s', v'), b') /\
  snd (used_book s' v' 1) = l2 /\ snd (used_book s' v' 0) <> l1 /\ map fst (snd (used_book s' v' 0)) = map fst l2.
Proof.
  set (cs := [mkChan (RVec false (Some (MBook 0 1))) 0 1 false; mkChan (RVec false (Some (MBook 0 1))) 0 1 false]).
  exists [(5, 1)], [(9, 0)], cs.
  exists (fresh (pack (frame_bits conf1 true cs ambient ++ book_vec_bits conf1 0 0 [(5, 1)] ++ book_vec_bits conf1 0 0 [(9, 0)] ++ repeat false 8))).
  do 3 eexists. split; [exact conf1_accepted|]. split; [apply frame1_ok; cbn [role_legal mode_ok]; change (h_nvv conf1) with 1; cbn; lia|]. split; [reflexivity|]. split; [apply wf_pack|].
  split. { split; [lia|]. split; [lia|]. intros i g [E|[]]; injection E as <- <-; cbn; lia. }
  split. { split; [lia|]. split; [lia|]. intros i g [E|[]]; injection E as <- <-; cbn; lia. }
  split; [|split; [vm_compute; reflexivity|split; [vm_compute; reflexivity|split; [vm_compute; discriminate|vm_compute; reflexivity]]]].
  eexists. vm_compute. reflexivity.
Qed.
Print Assumptions C122_two_books_refuted.

(** A legal frame is refused: the second index of the first vector is held against the codebook
    of the second channel. *)
Theorem C122_refused_refuted : exists l1 l2 cs b b',
  (exists sc', exec (fill_config (hoa_in 3)) (fresh (pack (conf1_bits ++ repeat false 16))) = Done (Ok conf1, sc')) /\
  frame_ok conf1 true hfs0 cs ambient /\ map c_role cs = [RVec false (Some (MBook 0 2)); RVec false (Some (MBook 1 1))] /\ wf b /\
  book_vec_ok conf1 0 0 l1 /\ book_vec_ok conf1 1 0 l2 /\ length l1 = 2%nat /\ length l2 = 1%nat /\
  (exists rest, rest_bits b = frame_bits conf1 true cs ambient ++ book_vec_bits conf1 0 0 l1 ++ book_vec_bits conf1 1 0 l2 ++ rest) /\
  exec (hoa_front conf1 hfs0 hvs0) b = Done (Er E_VVEC_IDX, b').
Proof.
  set (cs := [mkChan (RVec false (Some (MBook 0 2))) 0 1 false; mkChan (RVec false (Some (MBook 1 1))) 0 1 false]).
  exists [(5, 1); (100, 1)], [(9, 0)], cs.
  exists (fresh (pack (frame_bits conf1 true cs ambient ++ book_vec_bits conf1 0 0 [(5, 1); (100, 1)] ++ book_vec_bits conf1 1 0 [(9, 0)] ++ repeat false 8))).
  eexists. split; [exact conf1_accepted|]. split; [apply frame1_ok; cbn [role_legal mode_ok]; change (h_nvv conf1) with 1; cbn; lia|]. split; [reflexivity|]. split; [apply wf_pack|].
  split. { split; [lia|]. split; [lia|]. intros i g [E|[E|[]]]; injection E as <- <-; cbn; lia. }
  split. { split; [lia|]. split; [lia|]. intros i g [E|[]]; injection E as <- <-; cbn; lia. }
  split; [reflexivity|]. split; [reflexivity|]. split; [|vm_compute; reflexivity].
  eexists. vm_compute. reflexivity.
Qed.
Print Assumptions C122_refused_refuted.

(** With order 6 and shortened vectors a new vector makes the decoder read outside of a table. *)
Theorem C122_last_element_refuted : exists cs rs b,
  (exists sc', exec (fill_config (hoa_in 2)) (fresh (pack (conf6_bits ++ repeat false 16))) = Done (Ok (conf6 2), sc')) /\
  frame_ok (conf6 2) true hfs0 cs rs /\ map c_role cs = [RVec true (Some M8)] /\ wf b /\
  (exists rest, rest_bits b = frame_bits (conf6 2) true cs rs ++ rest) /\
  exec (hoa_front (conf6 2) hfs0 hvs0) b = UB UOob.
Proof.
  exists [mkChan (RVec true (Some M8)) 0 1 false], [mkChan RNone 0 1 false],
    (fresh (pack (frame_bits (conf6 2) true [mkChan (RVec true (Some M8)) 0 1 false] [mkChan RNone 0 1 false] ++ repeat false 400))).
  split; [eexists; vm_compute; reflexivity|]. split; [|split; [reflexivity|split; [apply wf_pack|split]]].
  - split; [reflexivity|]. split; [reflexivity|]. split.
    + intros [|[|i]] c o E1 E2; try discriminate E1; injection E1 as <-. unfold amp_ok. cbn [c_role c_amp c_gain role_legal mode_ok].
      change (h_gcb (conf6 2)) with 3. change (amp_off (conf6 2)) with 7. cbn. lia.
    + intros c [<-|[]]. unfold amp_ok. cbn [c_amp c_gain]. change (h_gcb (conf6 2)) with 3. change (amp_off (conf6 2)) with 7. cbn. lia.
  - eexists. vm_compute. reflexivity.
  - vm_compute. reflexivity.
Qed.
Print Assumptions C122_last_element_refuted.
