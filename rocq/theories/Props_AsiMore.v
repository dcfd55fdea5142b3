(** * Property C66: further scene data is stored as transmitted *)

From Coq Require Import ZArith List Lia Bool.
From Verif Require Import Bits BitBuf Prog Asi Wp Frame Spec_Asi Lem_AsiMore.
Import ListNotations.
Open Scope Z_scope.

Theorem C66_content_kinds_stored : forall l s rest,
  (1 <= length l <= 128)%nat -> Forall valid_content l -> wf s -> rest_bits s = enc_contents l ++ rest ->
  exists s', exec content_data s = Done (l, s') /\ wf s' /\ rest_bits s' = rest.
Proof. exact content_exec. Qed.
Print Assumptions C66_content_kinds_stored.
Example C66_case : valid_content (5, 12, Some 0x656e67) /\
  exists s', exec content_data (fresh (pack (enc_contents [(5, 12, Some 0x656e67); (6, 1, None)]))) = Done ([(5, 12, Some 0x656e67); (6, 1, None)], s').
Proof. split; [cbn; unfold fits; lia|]. eexists. vm_compute. reflexivity. Qed.

Theorem C66_composite_pairs_stored : forall l s rest,
  (length l <= 127)%nat -> Forall (fun p => fits 7 (fst p) /\ fits 7 (snd p)) l -> wf s -> rest_bits s = enc_pairs l ++ rest ->
  exists s', exec composite_pair s = Done (l, s') /\ wf s' /\ rest_bits s' = rest.
Proof. exact pair_exec. Qed.
Print Assumptions C66_composite_pairs_stored.
Example C66_pairs_case : exists s', exec composite_pair (fresh (pack (enc_pairs [(1, 2); (127, 0)]))) = Done ([(1, 2); (127, 0)], s').
Proof. eexists. vm_compute. reflexivity. Qed.

Theorem C66_screen_size_stored : forall o s rest,
  match o with None => True | Some (a, e, b) => fits 9 a /\ fits 9 e /\ fits 9 b end -> wf s ->
  rest_bits s = enc_screen o ++ rest -> exists s', exec screen_sz s = Done (o, s') /\ wf s' /\ rest_bits s' = rest.
Proof. exact screen_exec. Qed.
Print Assumptions C66_screen_size_stored.
Example C66_screen_case : exists s', exec screen_sz (fresh (pack (enc_screen (Some (511, 0, 255))))) = Done (Some (511, 0, 255), s').
Proof. eexists. vm_compute. reflexivity. Qed.

(** Up to 8 downmix ids per preset are read, more are rejected. *)
Theorem C66_many_downmix_ids_rejected : forall gs nc0 grp n s rest, 0 <= grp < 8 -> 8 <= n < 32 -> wf s ->
  rest_bits s = bits_of 1 0 ++ bits_of 1 1 ++ bits_of 5 n ++ rest ->
  exists s', exec (preset_ext_one gs nc0 grp) s = Done (Er E_NUM_DM_ID, s') /\ wf s' /\ rest_bits s' = rest.
Proof. exact many_ids_exec. Qed.
Print Assumptions C66_many_downmix_ids_rejected.
Theorem C66_downmix_ids_read : forall gs nc0 grp ids s rest, 0 <= grp < 8 -> (1 <= length ids <= 8)%nat -> Forall (fits 7) ids -> wf s ->
  rest_bits s = bits_of 1 0 ++ bits_of 1 1 ++ bits_of 5 (Z.of_nat (length ids) - 1) ++
     concat (map (fun id => bits_of 7 id ++ bits_of 4 0) ids) ++ rest ->
  exists s', exec (preset_ext_one gs nc0 grp) s = Done (Ok tt, s') /\ wf s' /\ rest_bits s' = rest.
Proof. exact few_ids_exec. Qed.
Print Assumptions C66_downmix_ids_read.
