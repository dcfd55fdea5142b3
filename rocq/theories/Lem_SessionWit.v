(** * Concrete histories of API calls *)
From Coq Require Import ZArith List Lia Bool.
From Verif Require Import Bits BitBuf Prog Frame Asi Mhas Config Spec_Mhas Spec_Asi Session Spec_Session Lem_ConfigProps Lem_MhasProps Spec_Config Lem_Mhas Lem_Session Lem_SessionInv.
Import ListNotations.
Open Scope Z_scope.

(** A configuration with six channels in layout 6, accepted by the parser. *)
Definition good : list Z := small_config 0x0D 6 6 (repeat false 9).
(** Another one, with five channels announced for the same layout. *)
Definition other : list Z := small_config 0x0D 6 5 (repeat false 9).
(** One with a higher-order-ambisonics element of order 7: code 0x1201. *)
Definition hoa7 : list Z := pack (
  bits_of 8 0x0D ++ bits_of 5 3 ++ bits_of 3 1 ++ [false; false] ++ bits_of 2 0 ++ bits_of 6 6 ++
  bits_of 5 0 ++ bits_of 3 0 ++ bits_of 5 5 ++ [false] ++
  bits_of 4 0 ++ [false] ++ bits_of 2 3 ++ bits_of 4 7 ++ bits_of 4 2 ++ [false; false] ++ bits_of 8 0xE0 ++ repeat false 32).
Definition packet (ty : Z) (pl : list Z) : list Z := pack (enc_header ty 1 (zlen pl)) ++ pl.

Definition env0 (raw : bool) (chan0 : bool) (chan : bool) : env :=
  mkE raw (negb raw) mst_zero config_zero 0 chan0 0 6 chan 0 0 0 (ARet 0 24576 6 4 true (24576, 0)).
Definition env1 : env := env0 false true true.

(** What a caller sees of a history, and three fields of the final state. *)
Definition outline (h : outcome (list (Z * outc) * sess * outc)) : option (list (Z * Z * bool) * (bool * bool * Z)) :=
  match h with
  | Done (rs, s, o) => Some (map (fun r => (fst r, o_cons (snd r), o_done (snd r))) rs, (s_init s, s_flush s, s_freq s))
  | _ => None
  end.
Lemma outline_done h l f : outline h = Some (l, f) -> exists rs s o, h = Done (rs, s, o) /\
  map (fun r => (fst r, o_cons (snd r), o_done (snd r))) rs = l /\ (s_init s, s_flush s, s_freq s) = f.
Proof. destruct h as [[[rs s] o]|x|r]; cbn; intros H; inversion H. exists rs, s, o. auto. Qed.

(** The binaural set-up fails (code 0xFFFFB001): the call reports an error and not done. *)
Definition bin_fails : aux := mkA NoInfo NoInfo NoInfo [] true 0xFFFFB001 false.
Definition groups_fail : aux := mkA NoInfo NoInfo NoInfo [] false 0 true.

Lemma binaural_history : outline (history [Init env1 bin_fails (packet 1 good); Execute env1 NoInfo (packet 2 [1; 2; 3])] created out0)
  = Some ([(0xFFFFB001, 0, false); (0, 5, false)], (true, false, 48000)).
Proof. vm_compute. reflexivity. Qed.
Lemma groups_history : outline (history [Init env1 groups_fail (packet 1 good)] created out0)
  = Some ([(E_ASI_GROUPS, 9, true)], (true, false, 48000)).
Proof. vm_compute. reflexivity. Qed.
Lemma usual_history : outline (history [Init env1 plain (packet 1 good); Execute env1 NoInfo (packet 2 [1; 2; 3])] created out0)
  = Some ([(0, 9, true); (0, 5, true)], (true, false, 48000)).
Proof. vm_compute. reflexivity. Qed.
Lemma stall_history : outline (history [Init env1 plain (packet 1 good); Execute env1 NoInfo (packet 1 hoa7)] created out0)
  = Some ([(0, 9, true); (0, 0, true)], (true, true, 48000)).
Proof. vm_compute. reflexivity. Qed.
Lemma stale_history : outline (history [Init env1 plain (packet 1 good); Execute (env0 false false true) NoInfo (packet 1 other);
    Execute (env0 false false false) NoInfo [0]] created out0)
  = Some ([(0, 9, true); (E_CHAN_CONFIG, 2, true); (E_CHAN_CONFIG, 2, true)], (true, false, 48000)).
Proof. vm_compute. reflexivity. Qed.
Lemma chunks_history : outline (history [Init env1 plain (firstn 5 (packet 1 good)); Init env1 plain (firstn 6 (packet 1 good));
    Init env1 plain (packet 1 good)] created out0)
  = Some ([(I_INPUT, 5, false); (I_INPUT, 6, false); (0, 1, false)], (false, false, 48000)).
Proof. vm_compute. reflexivity. Qed.
Lemma copy_history : outline (history [Init env1 plain (firstn 3 (packet 1 good)); Init env1 plain (packet 1 good);
    Execute env1 NoInfo (packet 1 good)] created out0)
  = Some ([(I_INPUT, 3, false); (0, 9, true); (0, 9, true)], (true, true, 48000)).
Proof. vm_compute. reflexivity. Qed.
Lemma hoa7_history : outline (history [Init env1 plain (packet 1 hoa7); Init env1 plain (packet 1 good)] created out0)
  = Some ([(0, 1, false); (0, 1, false)], (false, false, 48000)).
Proof. vm_compute. reflexivity. Qed.
(** A frame packet of 100 bytes before the configuration, of which 4 bytes are supplied. *)
Lemma frame_history : outline (history [Init env1 plain (firstn 4 (packet 2 (repeat 7 100)))] created out0)
  = Some ([(E_NO_CONFIG, 100, false)], (false, false, 0)).
Proof. vm_compute. reflexivity. Qed.

Lemma env1_ok : env_ok env1.
Proof.
  split; [|apply config_zero_ok]. split; [unfold mst_ok; cbn; lia|].
  vm_compute; repeat split; try discriminate; repeat constructor; discriminate.
Qed.

Definition code_of (o : outcome ((Z * ucfg) * rbuf)) : option Z := match o with Done ((c, _), _) => Some c | _ => None end.
Lemma hoa7_code : exists u b', exec (mpegh_3da_config 0 config_zero) (fresh hoa7) = Done ((0x1201, u), b').
Proof.
  assert (H : code_of (exec (mpegh_3da_config 0 config_zero) (fresh hoa7)) = Some 0x1201) by (vm_compute; reflexivity).
  destruct (exec (mpegh_3da_config 0 config_zero) (fresh hoa7)) as [[[c u] b']|x|r]; cbn in H; try discriminate.
  exists u, b'. congruence.
Qed.
