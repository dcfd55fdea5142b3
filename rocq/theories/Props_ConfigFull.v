(** * Property C65: whole stream configurations with extension elements, listed layouts and
    configuration extensions are stored as sent *)

From Coq Require Import ZArith List Lia Bool.
From Verif Require Import Bits BitBuf BitWrite Prog Escape Asi Spec_Asi Config Spec_Config Spec_ConfigFull
  Spec_Flex Lem_AsiProps Lem_ConfigMem Lem_ConfigProps Lem_ConfigTop.
Import ListNotations.
Open Scope Z_scope.

(** C65 for configurations of any profile level with named, listed or flexible layouts, channel,
    object and HOA groups, all kinds of elements, and all configuration extensions but the
    HOA matrix and the signal group information.  Not covered: flexible layouts with more than
    20 loudspeakers, with loudspeakers by number whose pair flag is not found, or read over a
    direction to the right (C107), channel
    groups with their own layout, SAOC groups, a decoder in which a compatibility set or a
    scene of an earlier configuration is still in force and disagrees ([fits_before], see
    C63 and C42). *)
Theorem C65_full_config_stored_partial : forall user u c s rest,
  cfg_ok u -> 0 <= user <= 20 -> valid_fconfig c -> fits_before c u -> wf s ->
  rest_bits s = enc_fconfig c ++ rest ->
  exists u' s', exec (mpegh_3da_config user u) s = Done ((0, u'), s') /\ rest_bits s' = rest /\
    holds_fconfig (if user =? 0 then layout_name (fc_lay c) (l_idx (u_ref u)) else user) c u'.
Proof. exact fconfig_exec. Qed.
Print Assumptions C65_full_config_stored_partial.

(** Two channels, two objects and four HOA transport channels on three loudspeakers, with
    pre-roll, object metadata, enhanced object metadata, production metadata, HOA and DRC
    elements; a downmix, a loudness block, a scene, levels the stream is compatible with. *)
Definition rich : fcfg := mkFC 0x0D (inr 44100) 1 1 (RListed [0; 1; 42]) [(0, 2); (1, 2); (3, 4)] 1
  [FExt (mkXe KPreroll [] None false);
   FCpe (mkCT 0 1 None) (Some 5) 1; FSce (mkCT 1 0 (Some [1; 0; 1; 0; 17; 9; 1]));
   FExt (mkXe (KObj (mkObj true (Some 256) (Some [false; true]) true false)) (repeat false 3) (Some 300) true);
   FExt (mkXe (KEnh (mkEnhC (Some true) (Some None) (Some 100) [(Some 9, true); (None, false)])) (repeat false 2) None false);
   FExt (mkXe (KProd (mkProdC (Some 77) [true] [false])) (repeat true 6) None false);
   FExt (mkXe (KHoa (mkHC 3 true None 0 true 4 false 1 5 0 2 3 2 8)) (repeat false 5) None false);
   FExt (mkXe (KDrc [1; 2; 255]) [] None false);
   FExt (mkXe (KOther 77 [9; 8]) [] None false)]
  [XCompat [0x0C; 0x0D; 0x50]; XDmx [mkDent 5 6 (Some [mkMtx [3; 4] [true; false; true]]); mkDent 7 2 None] [];
   XLoud [7; 8; 9]; XScene good_scene (repeat true 8); XFill 3].

Example C65_full_case : valid_fconfig rich /\ fits_before rich config_zero /\
  (Z.of_nat (length (enc_fconfig rich)) <? 2000) = true /\ level_used (fc_prof rich) (fc_exts rich) = 0x0C.
Proof.
  split; [|split; [|split; [vm_compute; reflexivity|reflexivity]]].
  - unfold valid_fconfig, is_bit.
    cbn [rich fc_rate fc_flen fc_rdc fc_elp fc_lay fc_groups fc_elems fc_exts fc_prof].
    split; [lia|]. split; [lia|]. split; [lia|]. split; [lia|].
    split; [cbn; split; [lia|]; repeat constructor; lia|].
    split; [cbn; lia|].
    split; [repeat constructor; cbn; lia|].
    split; [left; reflexivity|]. split; [cbn; lia|].
    split.
    { intros i e He. destruct i as [|[|[|[|[|[|[|[|[|i]]]]]]]]]; cbn in He;
        try (injection He as <-); try (destruct i; discriminate); cbn [valid_felem]; unfold valid_ext, valid_tools, is_bit;
        cbn -[Z.of_nat Z.modulo xlen xbody];
        unfold are_bytes, is_byte, valid_obj, valid_enh, valid_prod, valid_hoa, fits;
        repeat (match goal with |- _ /\ _ => split | |- Forall _ _ => constructor | |- _ -> _ => intro end); cbn; try lia; auto.
      all: vm_compute; intuition congruence. }
    split; [cbn; lia|].
    split.
    { repeat constructor; cbn; try lia; try exact good_valid; try (vm_compute; congruence); try (repeat constructor; cbn; lia). }
    split; [vm_compute; lia|].
    split; [lia|].
    exists 9. split; [reflexivity|]. split; [vm_compute; congruence|]. split; [vm_compute; congruence|].
    vm_compute. intros [E|E]; discriminate.
  - split; [reflexivity|]. split; [exact I|]. intros s Hs. cbn in Hs. injection Hs as <-. split; [|right; reflexivity].
    intros [|[|[|i]]] p Hp; cbn in Hp; try discriminate; inversion Hp; subst; cbn;
    (constructor; [|constructor]); cbn; split; intros; congruence.
Qed.

(** Five loudspeakers by direction and number. *)
Definition flexible : fcfg := mkFC 0x0C (inl 3) 1 0
  (RFlex true [(ByAngles 3 (-20) 35 false, true); (ByIndex 2, false); (ByIndex 4, true)]) [(0, 2)] 1
  [FCpe (mkCT 0 1 None) None 0] [].
Example C65_flex_case : valid_fconfig flexible /\ fits_before flexible config_zero.
Proof.
  split.
  - unfold valid_fconfig, is_bit.
    cbn [flexible fc_rate fc_flen fc_rdc fc_elp fc_lay fc_groups fc_elems fc_exts fc_prof].
    split; [cbn; lia|]. split; [lia|]. split; [lia|]. split; [lia|].
    split; [cbn; unfold seen_aside; split; [lia|]; split; repeat constructor; cbn; try lia; try discriminate|].
    split; [cbn; lia|].
    split; [repeat constructor; cbn; lia|].
    split; [right; exists 0; repeat constructor|]. split; [cbn; lia|].
    split.
    { intros [|i] e He; cbn in He; [injection He as <-|destruct i; discriminate].
      unfold valid_felem, valid_tools, is_bit. cbn. repeat split; lia. }
    split; [cbn; lia|]. split; [constructor|]. split; [vm_compute; lia|]. split; [lia|].
    exists 9. split; [reflexivity|]. split; [vm_compute; congruence|]. split; [vm_compute; congruence|].
    vm_compute. intros [E|E]; discriminate.
  - split; [reflexivity|]. split; [|intros s Hs; discriminate]. unfold unused. cbn. repeat constructor; cbn; discriminate.
Qed.
