(** * Lem_AsiData: descriptions, DRC user interface info and preset extensions *)

From Coq Require Import ZArith List Lia Bool.
From Verif Require Import Bits BitBuf Prog Asi Wp Frame Spec_Asi Lem_Asi Lem_AsiRT.
Import ListNotations.
Open Scope Z_scope.

(** ** Specification: mae_Description() of ISO/IEC 23008-3: blocks of (id, texts), a text
    being a language code and up to 256 bytes. *)
Definition text := (Z * list Z)%type.
Definition enc_text (t : text) : list bool :=
  bits_of 24 (fst t) ++ bits_of 8 (Z.of_nat (length (snd t)) - 1) ++ concat (map (bits_of 8) (snd t)).
Definition valid_text (t : text) : Prop :=
  fits 24 (fst t) /\ 1 <= Z.of_nat (length (snd t)) <= 256 /\ Forall (fits 8) (snd t).
Definition descr := (Z * list text)%type.
Definition enc_descr (idbits : nat) (b : descr) : list bool :=
  bits_of idbits (fst b) ++ bits_of 4 (Z.of_nat (length (snd b)) - 1) ++ concat (map enc_text (snd b)).
Definition valid_descr (idbits : nat) (b : descr) : Prop :=
  fits (Z.of_nat idbits) (fst b) /\ (1 <= length (snd b) <= 4)%nat /\ Forall valid_text (snd b).
Definition enc_descrs (idbits : nat) (bs : list descr) : list bool :=
  bits_of 7 (Z.of_nat (length bs) - 1) ++ concat (map (enc_descr idbits) bs).
(** Text bytes are stored as signed characters. *)
Definition as_chars (b : descr) : descr := (fst b, map (fun t => (fst t, map s8 (snd t))) (snd b)).

Lemma loop_app {A B} (body : nat -> prog B) (enc : A -> list bool) (view : A -> B) (ok : A -> Prop) bnd :
  (forall i x rest, (i < bnd)%nat -> ok x -> runA (body i) (enc x ++ rest) = Done (view x, rest)) ->
  forall xs i acc rest, (i + length xs <= bnd)%nat -> Forall ok xs ->
  runA (forP (length xs) i (fun i t => x <- body i ;; Ret (t ++ [x])) acc) (concat (map enc xs) ++ rest)
  = Done (acc ++ map view xs, rest).
Proof.
  intros HB. induction xs as [|x xs IH]; intros i acc rest HL HF; cbn [length forP map concat].
  - cbn [runA app]. rewrite app_nil_r. reflexivity.
  - inversion HF; subst. cbn [length] in HL. rewrite bind_assoc, <- app_assoc, runA_bind, HB by (auto; lia).
    cbn [bind]. rewrite IH by (auto; lia). rewrite <- app_assoc. reflexivity.
Qed.

Lemma descr_lang_rt blk cnt t rest :
  0 <= blk < 128 -> 0 <= cnt < 4 -> valid_text t -> (length (snd t) <= 127)%nat ->
  runA (descr_lang blk cnt) (enc_text t ++ rest) = Done ((fst t, map s8 (snd t)), rest).
Proof.
  intros H1 H2 (V1 & V2 & V3) H127. destruct t as [l bs]. cbn [fst snd] in *.
  unfold descr_lang, enc_text, fits in *. cbn [fst snd].
  rewrite !runA_chk by lia. rewrite <- !app_assoc. rd1. rd1.
  rewrite (s8_small (_ - 1)) by lia. rewrite s8_small by lia.
  replace (Z.of_nat (length bs) - 1 + 1) with (Z.of_nat (length bs)) by lia. rewrite Nat2Z.id.
  assert (E : forall xs i acc, (i + length xs <= 256)%nat -> Forall (fun v => 0 <= v < 2 ^ 8) xs ->
     runA (forP (length xs) i (fun i t => chk (Z.of_nat i) 256 ;;; v <- rd 8 ;; Ret (t ++ [s8 v])) acc)
          (concat (map (bits_of 8) xs) ++ rest) = Done (acc ++ map s8 xs, rest)).
  { induction xs as [|x xs IH]; intros i acc HL HF; cbn [length forP map concat].
    - cbn [runA app]. rewrite app_nil_r. reflexivity.
    - inversion HF; subst. cbn [length] in HL. rewrite !bind_assoc. rewrite runA_chk by lia.
      rewrite bind_assoc, <- app_assoc. rd1. cbn [bind].
      rewrite IH by (auto; lia). rewrite <- app_assoc. reflexivity. }
  rewrite runA_bind, E by (auto; lia). reflexivity.
Qed.

Lemma descr_blk_rt idbits blk b rest :
  (idbits <= 24)%nat -> 0 <= blk < 128 -> valid_descr idbits b ->
  Forall (fun t => (length (snd t) <= 127)%nat) (snd b) ->
  runA (descr_blk (Z.of_nat idbits) blk) (enc_descr idbits b ++ rest) = Done (Ok (as_chars b), rest).
Proof.
  intros Hb H1 (V1 & V2 & V3) H127. destruct b as [id ts]. cbn [fst snd] in *.
  unfold descr_blk, enc_descr, fits in *. cbn [fst snd].
  rewrite runA_chk by lia. rewrite <- !app_assoc. rd1. rd1.
  replace (Z.of_nat (length ts) - 1 + 1) with (Z.of_nat (length ts)) by lia. rewrite Nat2Z.id.
  destruct (Z.ltb_spec 4 (Z.of_nat (length ts))); [lia|].
  assert (V4 : Forall (fun t => valid_text t /\ (length (snd t) <= 127)%nat) ts).
  { rewrite Forall_forall in *. intros x Hx. split; auto. }
  rewrite runA_bind, (loop_app _ enc_text (fun t => (fst t, map s8 (snd t))) (fun t => valid_text t /\ (length (snd t) <= 127)%nat) 4); auto; try lia.
  intros i x r Hi [Hx1 Hx2]. apply descr_lang_rt; auto; lia.
Qed.

Lemma description_rt idbits bs rest :
  (idbits <= 24)%nat -> (1 <= length bs <= 128)%nat -> Forall (valid_descr idbits) bs ->
  Forall (fun b => Forall (fun t => (length (snd t) <= 127)%nat) (snd b)) bs ->
  runA (description_data (Z.of_nat idbits)) (enc_descrs idbits bs ++ rest)
  = Done (Ok (map as_chars bs), rest).
Proof.
  intros Hb HL V1 V2. unfold description_data, enc_descrs. rewrite <- !app_assoc. rd1.
  rewrite s8_small by lia. unfold u8. rewrite to_u_id by (cbn; lia).
  replace (Z.of_nat (length bs) - 1 + 1) with (Z.of_nat (length bs)) by lia. rewrite Nat2Z.id.
  destruct (Z.ltb_spec 128 (Z.of_nat (length bs))); [lia|].
  assert (E : forall xs i acc, (i + length xs <= 128)%nat -> Forall (valid_descr idbits) xs ->
     Forall (fun b => Forall (fun t => (length (snd t) <= 127)%nat) (snd b)) xs ->
     runA (forR (length xs) i (fun i t =>
        r <- descr_blk (Z.of_nat idbits) (Z.of_nat i) ;;
        match r with Er e => Ret (Er e) | Ok b => Ret (Ok (t ++ [b])) end) acc)
      (concat (map (enc_descr idbits) xs) ++ rest) = Done (Ok (acc ++ map as_chars xs), rest)).
  { induction xs as [|x xs IH]; intros i acc HL1 HF HG; cbn [length forR map concat].
    - cbn [runA app]. rewrite app_nil_r. reflexivity.
    - inversion HF; inversion HG; subst. cbn [length] in HL1.
      rewrite bind_assoc, <- app_assoc, runA_bind, descr_blk_rt by (auto; lia). cbn [bind].
      rewrite IH by (auto; lia). rewrite <- app_assoc. reflexivity. }
  rewrite E by (auto; lia). reflexivity.
Qed.

Lemma description_exec_rt idbits bs d rest :
  are_bytes d -> bytes_bits d = enc_descrs idbits bs ++ rest ->
  (idbits <= 24)%nat -> (1 <= length bs <= 128)%nat -> Forall (valid_descr idbits) bs ->
  Forall (fun b => Forall (fun t => (length (snd t) <= 127)%nat) (snd b)) bs ->
  exists s', exec (description_data (Z.of_nat idbits)) (fresh d) = Done (Ok (map as_chars bs), s') /\
    bitpos s' = Z.of_nat (length (enc_descrs idbits bs)).
Proof.
  intros Hd HB H1 H2 H3 H4.
  destruct (exec_of_runA (description_data (Z.of_nat idbits)) d _ _ rest (fun _ => True) Hd
    ltac:(apply wp_description_data; [lia|auto]) HB (description_rt idbits bs rest H1 H2 H3 H4))
    as (s' & E & _ & B & _). eauto.
Qed.

(** ** DRC user interface info: per target, an id and a 16-bit set of effects. *)
Definition enc_drc_ui (l : list (Z * Z)) : list bool :=
  bits_of 2 0 ++ bits_of 3 (Z.of_nat (length l)) ++
  concat (map (fun x => bits_of 6 (fst x) ++ bits_of 16 (snd x)) l).

Lemma drc_ui_rt l rest :
  (length l <= 7)%nat -> Forall (fun x => fits 6 (fst x) /\ fits 16 (snd x)) l ->
  runA drc_ui (enc_drc_ui l ++ rest) = Done (map (fun x => (fst x, s8 (snd x))) l, rest).
Proof.
  intros HL HF. unfold drc_ui, enc_drc_ui, fits in *. rewrite <- !app_assoc.
  rd1. cbn [Z.eqb negb]. rd1. rewrite Nat2Z.id.
  assert (E : forall xs i acc, (i + length xs <= 7)%nat -> Forall (fun x => 0 <= fst x < 2 ^ 6 /\ 0 <= snd x < 2 ^ 16) xs ->
     runA (forP (length xs) i (fun i t =>
       chk (Z.of_nat i + 1) 8 ;;; chk (Z.of_nat i) 7 ;;;
       a <- rd 6 ;; b <- rd 16 ;; Ret (t ++ [(a, s8 b)])) acc)
      (concat (map (fun x => bits_of 6 (fst x) ++ bits_of 16 (snd x)) xs) ++ rest)
     = Done (acc ++ map (fun x => (fst x, s8 (snd x))) xs, rest)).
  { induction xs as [|[a b] xs IH]; intros i acc HL1 HF1; cbn [length forP map concat].
    - cbn [runA app]. rewrite app_nil_r. reflexivity.
    - inversion HF1 as [|? ? [Ha Hb] HF2]; subst. cbn [length fst snd] in *.
      rewrite !bind_assoc. rewrite runA_chk by lia. rewrite bind_assoc. rewrite runA_chk by lia.
      rewrite bind_assoc, <- !app_assoc. rd1. rewrite bind_assoc. rd1. cbn [bind].
      rewrite IH by (auto; lia). rewrite <- app_assoc. reflexivity. }
  rewrite E by (auto; lia). reflexivity.
Qed.

(** ** Preset extension: per preset, optionally one flag per condition (whether it
    refers to a switch group). *)
Definition enc_ext (e : option (list bool)) : list bool :=
  enc_opt (fun fs => concat (map flag fs)) e ++ flag false.

Lemma flags_rt : forall fs i rest, (i + length fs <= 16)%nat ->
  runA (forP (length fs) i (fun i _ => chk (Z.of_nat i) 16 ;;; rd 1 ;;; Ret tt) tt) (concat (map flag fs) ++ rest)
  = Done (tt, rest).
Proof.
  induction fs as [|b fs IH]; intros i rest HL; cbn [length forP map concat]; [reflexivity|].
  cbn [length] in HL. rewrite !bind_assoc, runA_chk by lia. rewrite bind_assoc, <- app_assoc.
  rewrite runA_flag. cbn [bind]. apply IH. lia.
Qed.

Lemma preset_ext_rt gs nc0 exts rest :
  (length exts <= 8)%nat -> 0 <= nc0 <= 16 ->
  Forall (fun e => match e with None => True | Some fs => Z.of_nat (length fs) = nc0 end) exts ->
  runA (preset_ext gs (length exts) nc0) (concat (map enc_ext exts) ++ rest) = Done (Ok tt, rest).
Proof.
  intros HL Hn HF. unfold preset_ext.
  assert (E : forall xs i, (i + length xs <= 8)%nat ->
    Forall (fun e => match e with None => True | Some fs => Z.of_nat (length fs) = nc0 end) xs ->
    runA (forR (length xs) i (fun grp _ => preset_ext_one gs nc0 (Z.of_nat grp)) tt)
      (concat (map enc_ext xs) ++ rest) = Done (Ok tt, rest)).
  { induction xs as [|x xs IH]; intros i HL1 HF1; cbn [length forR map concat]; [reflexivity|].
    inversion HF1; subst. cbn [length] in HL1. rewrite <- app_assoc, runA_bind.
    assert (ONE : runA (preset_ext_one gs nc0 (Z.of_nat i)) (enc_ext x ++ concat (map enc_ext xs) ++ rest)
      = Done (Ok tt, concat (map enc_ext xs) ++ rest)).
    { unfold preset_ext_one, enc_ext. rewrite runA_chk by lia.
      destruct x as [fs|]; cbn [enc_opt]; rewrite <- !app_assoc; rewrite runA_flag; cbn [b2z].
      - unfold ifnz. change (1 =? 0) with false. cbv iota. rewrite runA_bind.
        replace (Z.to_nat nc0) with (length fs) by lia. rewrite flags_rt by lia.
        rewrite runA_flag. reflexivity.
      - unfold ifnz. change (0 =? 0) with true. cbv iota. cbn [bind]. rewrite runA_flag. reflexivity. }
    rewrite ONE. apply IH; auto. lia. }
  apply E; auto.
Qed.
