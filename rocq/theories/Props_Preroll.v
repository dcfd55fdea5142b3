(** * Properties of audio pre-roll *)
From Coq Require Import ZArith List Lia Bool.
From Verif Require Import Bits BitBuf BitWrite Prog Spec_Mhas Preroll Spec_Preroll Lem_Preroll.
Import ListNotations.
Open Scope Z_scope.

(** ** C81: the caller gets the audio of the main access unit *)

(** No pre-roll unit was decoded: the whole output. *)
Theorem C81_single_partial : forall A rest, A <> [] ->
  output_of (Z.of_nat (length A)) 0 (A ++ rest) = (Z.of_nat (length A), A).
Proof. exact out_one. Qed.
Print Assumptions C81_single_partial.

(** A pre-roll unit wrote [A] and the main unit [B]: [B], when both have the same size. *)
Theorem C81_main_unit_partial : forall A B rest, A <> [] -> length A = length B ->
  output_of (Z.of_nat (length A)) (Z.of_nat (length B)) (A ++ B ++ rest) = (Z.of_nat (length B), B).
Proof. exact out_two. Qed.
Print Assumptions C81_main_unit_partial.

(** Otherwise (the start-up delay is cut from the first one, the frame length or channel
    count changed) the size and the bytes are wrong. *)
Theorem C81_sizes_refuted : forall A B rest, A <> [] -> B <> [] -> length A <> length B ->
  output_of (Z.of_nat (length A)) (Z.of_nat (length B)) (A ++ B ++ rest) <> (Z.of_nat (length B), B).
Proof. exact out_size. Qed.
Print Assumptions C81_sizes_refuted.

(** The start-up delay swallows the whole pre-roll unit: nothing of the main unit is returned. *)
Theorem C81_swallowed_refuted : forall B rest, B <> [] ->
  output_of 0 (Z.of_nat (length B)) (B ++ rest) = (0, []) /\ (0, []) <> (Z.of_nat (length B), B).
Proof. exact out_swallowed. Qed.
Print Assumptions C81_swallowed_refuted.

Example C81_case : output_of 2 2 [1; 2; 3; 4] = (2, [3; 4]) /\ output_of 1 2 [1; 2; 3] = (1, [3]) /\ output_of 3 2 [1; 2; 3; 4; 5] = (3, [3; 4; 5]).
Proof. repeat split; reflexivity. Qed.

(** ** C82: which access units are decoded *)

(** Parsing recovers the configuration and the place of the unit that the element carries. *)
Theorem C82_parse : forall indep plen conf r1 r2 units rest s, wf s -> valid_preroll plen conf ->
  Forall valid_unit units -> (length units <= 1)%nat ->
  rest_bits s = enc_preroll indep plen conf r1 r2 units ++ rest ->
  exists s', exec (parse_preroll true) s =
    Done (Ok (mkPre (Z.of_nat (length units)) (map (fun u => 8 * Z.of_nat (length u) + Z.of_nat (length rest)) units)
                    (conf ++ repeat 0 (288 - length conf)) (Z.of_nat (length conf))), s')
    /\ wf s' /\ rest_bits s' = rest.
Proof. exact preroll_exec. Qed.
Print Assumptions C82_parse.

(** More than one unit is refused (the standard allows three). *)
Theorem C82_too_many : forall indep plen conf r1 r2 units rest s, wf s -> valid_preroll plen conf ->
  Forall valid_unit units -> (2 <= length units <= 18)%nat ->
  rest_bits s = enc_preroll indep plen conf r1 r2 units ++ rest ->
  exists s', exec (parse_preroll true) s = Done (Er 0xFFFF9815, s').
Proof. exact preroll_many. Qed.
Print Assumptions C82_too_many.

(** Whatever the bits, parsing stays in the arrays and never reads beyond the input. *)
Theorem C82_parse_safe : forall ext s, wf s -> match exec (parse_preroll ext) s with
  | Done (Ok p, _) => -1 <= p_units p <= 1 /\ length (p_conf p) = 288%nat /\ Z.of_nat (length (p_left p)) = Z.max 0 (p_units p) /\ 0 <= p_clen p <= 285
  | Done (Er _, _) => True
  | Jmp _ => True
  | UB _ => False
  end.
Proof. exact preroll_safe. Qed.
Print Assumptions C82_parse_safe.

(** With a configuration, the units are decoded when it differs from the previous one; the
    new one is parsed before the first of them and remembered. *)
Theorem C82_first : forall size main units left conf clen q, clen <> 0 -> q_present q = false -> 0 <= units <= 1 ->
  Z.of_nat (length left) = units ->
  units_decoded size main (mkPre units left conf clen) q = Some ([(main, false)], mkPst true conf).
Proof. exact units_first. Qed.
Print Assumptions C82_first.
Theorem C82_same : forall size main units left conf clen q, clen <> 0 -> q_present q = true -> q_prev q = conf -> 0 <= units <= 1 ->
  Z.of_nat (length left) = units ->
  units_decoded size main (mkPre units left conf clen) q = Some ([(main, false)], q).
Proof. exact units_same. Qed.
Print Assumptions C82_same.
Theorem C82_changed : forall size main left conf clen q, clen <> 0 -> q_present q = true -> q_prev q <> conf ->
  units_decoded size main (mkPre 1 [left] conf clen) q = Some ([(size - left, true); (main, false)], mkPst true conf).
Proof. exact units_changed. Qed.
Print Assumptions C82_changed.
Theorem C82_changed_no_unit : forall size main conf clen q, clen <> 0 -> q_present q = true -> q_prev q <> conf ->
  units_decoded size main (mkPre 0 [] conf clen) q = Some ([(main, true)], mkPst true conf).
Proof. exact units_changed0. Qed.
Print Assumptions C82_changed_no_unit.
Theorem C82_plain : forall size main q conf, units_decoded size main (mkPre 0 [] conf 0) q = Some ([(main, false)], q).
Proof. exact units_plain. Qed.
Print Assumptions C82_plain.

(** Without a configuration nothing changed, yet the unit is decoded before the main one,
    in the middle of the programme. *)
Theorem C82_no_config_refuted : forall size main left q conf,
  units_decoded size main (mkPre 1 [left] conf 0) q = Some ([(size - left, false); (main, false)], q).
Proof. exact units_noconf. Qed.
Print Assumptions C82_no_config_refuted.

(** Two configurations of different length, one of which is the other and zeros, are taken
    for equal. *)
Theorem C82_zeros_refuted : forall size main conf n left q, (0 < n)%nat -> conf <> [] -> (length conf + n <= 285)%nat ->
  q_present q = true -> q_prev q = conf ++ repeat 0 (288 - length conf) ->
  let longer := conf ++ repeat 0 n in longer <> conf /\
  units_decoded size main (mkPre 1 [left] (longer ++ repeat 0 (288 - length longer)) (Z.of_nat (length longer))) q = Some ([(main, false)], q).
Proof. exact zeros_same. Qed.
Print Assumptions C82_zeros_refuted.

Definition case_bits : list bool := enc_preroll true 9 [1; 2; 3] false false [[7; 8]] ++ bits_of 8 0x55.
Example C82_case : exists s, rest_bits s = case_bits ++ repeat false 5 /\ wf s /\
  match exec (parse_preroll true) s with
  | Done (Ok p, s') => p_units p = 1 /\ p_left p = [29] /\ firstn 4 (p_conf p) = [1; 2; 3; 0] /\ p_clen p = 3 /\ rest_bits s' = bits_of 8 0x55 ++ repeat false 5
  | _ => False end.
Proof. exact case_parses. Qed.
