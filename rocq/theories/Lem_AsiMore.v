(** * Lem_AsiMore: content kinds, composite pairs, screen size, downmix ids of presets *)

From Coq Require Import ZArith List Lia Bool.
From Verif Require Import Bits BitBuf Prog Asi Wp Frame Spec_Asi Lem_Asi Lem_AsiRT Lem_AsiData Loops Lem_MhasProps.
Import ListNotations.
Open Scope Z_scope.

(** mae_ContentData() of ISO/IEC 23008-3: group id, content kind, optional language. *)
Definition content := (Z * Z * option Z)%type.
Definition enc_content (c : content) : list bool :=
  let '(id, k, l) := c in
  bits_of 7 id ++ bits_of 4 k ++ match l with None => bits_of 1 0 | Some v => bits_of 1 1 ++ bits_of 24 v end.
Definition valid_content (c : content) : Prop :=
  let '(id, k, l) := c in fits 7 id /\ fits 4 k /\ match l with None => True | Some v => fits 24 v end.
Definition enc_contents (l : list content) : list bool :=
  bits_of 7 (Z.of_nat (length l) - 1) ++ concat (map enc_content l).
(** mae_CompositePair(): a count and pairs of element ids. *)
Definition enc_pair (p : Z * Z) : list bool := bits_of 7 (fst p) ++ bits_of 7 (snd p).
Definition enc_pairs (l : list (Z * Z)) : list bool :=
  bits_of 7 (Z.of_nat (length l)) ++ concat (map enc_pair l).
(** mae_ProductionScreenSizeData(). *)
Definition enc_screen (o : option (Z * Z * Z)) : list bool :=
  match o with
  | None => bits_of 1 0
  | Some (a, e, b) => bits_of 1 1 ++ bits_of 9 a ++ bits_of 9 e ++ bits_of 9 b
  end.

Lemma content_run l rest : (1 <= length l <= 128)%nat -> Forall valid_content l ->
  runA content_data (enc_contents l ++ rest) = Done (l, rest).
Proof.
  intros HL HF. unfold content_data, enc_contents. rewrite <- app_assoc. rd1.
  replace (Z.of_nat (length l) - 1 + 1) with (Z.of_nat (length l)) by lia. rewrite Nat2Z.id.
  assert (E : forall xs i acc, (i + length xs <= 128)%nat -> Forall valid_content xs ->
    runA (forP (length xs) i (fun i t => chk (Z.of_nat i) 128 ;;; id <- rd 7 ;; k <- rd 4 ;; h <- rd 1 ;;
      l <- (if h =? 0 then Ret None else v <- rd 24 ;; Ret (Some v)) ;; Ret (t ++ [(id, k, l)])) acc)
      (concat (map enc_content xs) ++ rest) = Done (acc ++ xs, rest)).
  { induction xs as [|x xs IH]; intros i acc Hi F; cbn [length forP map concat].
    - cbn [runA app]. rewrite app_nil_r. reflexivity.
    - inversion F as [|? ? V F']; subst. cbn [length] in Hi. destruct x as [[id k] o]. cbn in V. unfold fits in V.
      rewrite !bind_assoc. rewrite runA_chk by lia. unfold enc_content. rewrite <- !app_assoc. rewrite bind_assoc. rd1. rewrite bind_assoc. rd1.
      destruct o as [v|].
      + rewrite <- !app_assoc. rewrite bind_assoc. rd1. cbn [Z.eqb]. rewrite !bind_assoc. rd1. cbn [bind].
        rewrite IH by (auto; lia). rewrite <- app_assoc. reflexivity.
      + rewrite bind_assoc. rd1. cbn [Z.eqb bind]. rewrite IH by (auto; lia). rewrite <- app_assoc. reflexivity. }
  rewrite E by (auto; lia). reflexivity.
Qed.

Lemma pair_run l rest : (length l <= 127)%nat -> Forall (fun p => fits 7 (fst p) /\ fits 7 (snd p)) l ->
  runA composite_pair (enc_pairs l ++ rest) = Done (l, rest).
Proof.
  intros HL HF. unfold composite_pair, enc_pairs. rewrite <- app_assoc. rd1. rewrite Nat2Z.id.
  assert (E : forall xs i acc, (i + length xs <= 128)%nat -> Forall (fun p => fits 7 (fst p) /\ fits 7 (snd p)) xs ->
    runA (forP (length xs) i (fun i t => chk (Z.of_nat i) 128 ;;; a <- rd 7 ;; b <- rd 7 ;; Ret (t ++ [(a, b)])) acc)
      (concat (map enc_pair xs) ++ rest) = Done (acc ++ xs, rest)).
  { induction xs as [|x xs IH]; intros i acc Hi F; cbn [length forP map concat].
    - cbn [runA app]. rewrite app_nil_r. reflexivity.
    - inversion F as [|? ? V F']; subst. cbn [length] in Hi. destruct x as [a b]. cbn in V. unfold fits in V.
      rewrite !bind_assoc. rewrite runA_chk by lia. unfold enc_pair. rewrite <- !app_assoc. cbn [fst snd]. rewrite bind_assoc. rd1. rewrite bind_assoc. rd1.
      cbn [bind]. rewrite IH by (auto; lia). rewrite <- app_assoc. reflexivity. }
  rewrite E by (auto; lia). reflexivity.
Qed.

Lemma screen_run o rest : match o with None => True | Some (a, e, b) => fits 9 a /\ fits 9 e /\ fits 9 b end ->
  runA screen_sz (enc_screen o ++ rest) = Done (o, rest).
Proof.
  intros H. unfold screen_sz, enc_screen. destruct o as [[[a e] b]|].
  - unfold fits in H. rewrite <- !app_assoc. rd1. cbn [Z.eqb]. rd1. rd1. rd1. reflexivity.
  - rd1. reflexivity.
Qed.

(** A preset with more than 8 downmix ids is rejected before any of them is read. *)
Lemma many_ids_run gs nc0 grp n rest : 0 <= grp < 8 -> 8 <= n < 32 ->
  runA (preset_ext_one gs nc0 grp) (bits_of 1 0 ++ bits_of 1 1 ++ bits_of 5 n ++ rest) = Done (Er E_NUM_DM_ID, rest).
Proof.
  intros Hg Hn. unfold preset_ext_one. rewrite runA_chk by lia. rd1. unfold ifnz. cbn [Z.eqb bind]. rd1. cbn [Z.eqb].
  rd1. destruct (Z.ltb_spec 8 (n + 1)); [reflexivity|lia].
Qed.
Lemma few_ids_run gs nc0 grp ids rest : 0 <= grp < 8 -> (1 <= length ids <= 8)%nat -> Forall (fits 7) ids ->
  runA (preset_ext_one gs nc0 grp)
    (bits_of 1 0 ++ bits_of 1 1 ++ bits_of 5 (Z.of_nat (length ids) - 1) ++
     concat (map (fun id => bits_of 7 id ++ bits_of 4 0) ids) ++ rest) = Done (Ok tt, rest).
Proof.
  intros Hg Hn HF. unfold preset_ext_one. rewrite runA_chk by lia. rd1. unfold ifnz. cbn [Z.eqb bind]. rd1. cbn [Z.eqb].
  rd1. replace (Z.of_nat (length ids) - 1 + 1) with (Z.of_nat (length ids)) by lia. rewrite Nat2Z.id.
  destruct (Z.ltb_spec 8 (Z.of_nat (length ids))); [lia|].
  match goal with |- runA (forR _ _ ?b tt) _ = _ => set (body := b) end.
  assert (E : forall xs i, (i + length xs <= 8)%nat -> Forall (fits 7) xs ->
    runA (forR (length xs) i body tt) (concat (map (fun id => bits_of 7 id ++ bits_of 4 0) xs) ++ rest) = Done (Ok tt, rest)).
  { induction xs as [|x xs IH]; intros i Hi F; cbn [length forR map concat]; [reflexivity|].
    inversion F as [|? ? V F']; subst. cbn [length] in Hi. unfold fits in V. unfold body at 1.
    rewrite !bind_assoc. rewrite runA_chk by lia. rewrite <- !app_assoc. rewrite bind_assoc. rd1. rewrite bind_assoc. rd1.
    change (Z.to_nat 0) with 0%nat. cbn [forR bind]. apply IH; auto; lia. }
  apply E; auto; lia.
Qed.

Lemma content_exec l s rest : (1 <= length l <= 128)%nat -> Forall valid_content l -> wf s -> rest_bits s = enc_contents l ++ rest ->
  exists s', exec content_data s = Done (l, s') /\ wf s' /\ rest_bits s' = rest.
Proof. intros A B W R. apply exec_of_run; [exact W|]. rewrite R. apply content_run; auto. Qed.
Lemma pair_exec l s rest : (length l <= 127)%nat -> Forall (fun p => fits 7 (fst p) /\ fits 7 (snd p)) l -> wf s -> rest_bits s = enc_pairs l ++ rest ->
  exists s', exec composite_pair s = Done (l, s') /\ wf s' /\ rest_bits s' = rest.
Proof. intros A B W R. apply exec_of_run; [exact W|]. rewrite R. apply pair_run; auto. Qed.
Lemma screen_exec o s rest : match o with None => True | Some (a, e, b) => fits 9 a /\ fits 9 e /\ fits 9 b end -> wf s ->
  rest_bits s = enc_screen o ++ rest -> exists s', exec screen_sz s = Done (o, s') /\ wf s' /\ rest_bits s' = rest.
Proof. intros A W R. apply exec_of_run; [exact W|]. rewrite R. apply screen_run; auto. Qed.
Lemma many_ids_exec gs nc0 grp n s rest : 0 <= grp < 8 -> 8 <= n < 32 -> wf s ->
  rest_bits s = bits_of 1 0 ++ bits_of 1 1 ++ bits_of 5 n ++ rest ->
  exists s', exec (preset_ext_one gs nc0 grp) s = Done (Er E_NUM_DM_ID, s') /\ wf s' /\ rest_bits s' = rest.
Proof. intros A B W R. apply exec_of_run; [exact W|]. rewrite R. apply many_ids_run; auto. Qed.
Lemma few_ids_exec gs nc0 grp ids s rest : 0 <= grp < 8 -> (1 <= length ids <= 8)%nat -> Forall (fits 7) ids -> wf s ->
  rest_bits s = bits_of 1 0 ++ bits_of 1 1 ++ bits_of 5 (Z.of_nat (length ids) - 1) ++
     concat (map (fun id => bits_of 7 id ++ bits_of 4 0) ids) ++ rest ->
  exists s', exec (preset_ext_one gs nc0 grp) s = Done (Ok tt, s') /\ wf s' /\ rest_bits s' = rest.
Proof. intros A B F W R. apply exec_of_run; [exact W|]. rewrite R. apply few_ids_run; auto. Qed.
