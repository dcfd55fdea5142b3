(** * Lem_Scan: scanning a stream of packets *)

From Coq Require Import ZArith List Lia Bool.
From Verif Require Import Bits BitBuf BitWrite Prog Escape Asi Wp Wlp Frame Loops Spec_Asi Lem_Asi Lem_AsiRT
  Loud Mhas Spec_Mhas Lem_Mhas.
Import ListNotations.
Open Scope Z_scope.

Lemma runA_skipb {A} n (k : unit -> prog A) pre rest :
  n = Z.of_nat (length pre) -> runA (bind (skip n) k) (pre ++ rest) = runA (k tt) rest.
Proof. intros ->. cbn [bind skip]. apply runA_skip. Qed.

Lemma enc_bytes_len bs : length (enc_bytes bs) = (8 * length bs)%nat.
Proof. apply bytes_len. Qed.

Definition after (p : pkt) (s s' : mst) : Prop :=
  match p with
  | Scene _ sc _ => scene_held sc (m_asi s') /\ m_asip s' = 1
  | _ => m_asi s' = m_asi s /\ m_asip s' = m_asip s
  end /\
  m_eip s' = match p with User _ _ => 1 | _ => m_eip s end /\
  m_ear s' = m_ear s /\ m_earp s' = m_earp s /\ m_pcm s' = m_pcm s /\
  m_ptype s' = 0 /\ m_pdata s' = m_pdata s /\ m_pcfg s' = m_pcfg s /\ m_err s' = 0.

Lemma label_header ty lb len : 0 <= ty <= max_type -> label_ok lb -> 0 <= len <= max_length ->
  valid_header ty lb len /\ lb < 258.
Proof. unfold valid_header, label_ok, max_label. lia. Qed.

Lemma presets_checked sc old : presets_allowed sc -> preset_checks sc old.
Proof.
  intros H i p Hp. destruct (H i p Hp) as (g & Hg & HF). rewrite Hg. exact HF.
Qed.

Lemma pkt_step f p s rest :
  valid_pkt p -> shape (m_asi s) -> m_ptype s = 0 -> m_err s = 0 ->
  exists s', runA (mhas_loop (S f) s) (enc_pkt p ++ rest) = runA (mhas_loop f s') rest /\
    shape (m_asi s') /\ after p s s'.
Proof.
  intros V Sh Hp He. cbn [mhas_loop].
  destruct p as [ty lb bs|lb|lb bs|lb sc pad]; cbn [enc_pkt valid_pkt] in *.
  - destruct V as ([V1 V1'] & V2 & V3). rewrite <- app_assoc.
    destruct (label_header ty lb (Z.of_nat (length bs)) V1 V2 ltac:(lia)) as [H1 H2].
    rewrite runA_header by assumption. cbv beta iota.
    assert (N : forall t, In t [1; 2; 3; 6; 12; 19; 20; 21; 22] -> (ty =? t) = false).
    { intros t Ht. apply Z.eqb_neq. intros ->. contradiction. }
    unfold packet_body, CFG, FRAME. rewrite !N by (cbn; auto 12). cbn [orb].
    rewrite bind_assoc, runA_skipb by (rewrite enc_bytes_len; lia). cbn [bind]. rewrite Hp. cbn [Z.eqb].
    exists s. split; [reflexivity|]. split; [exact Sh|]. unfold after. repeat split; auto.
  - destruct (label_header 6 lb 1 ltac:(unfold max_type; lia) V ltac:(unfold max_length; lia)) as [H1 H2].
    rewrite <- app_assoc. rewrite runA_header by assumption. cbv beta iota.
    change (packet_body 6 1 s) with (v <- rd 8 ;;
      if negb (v =? 0xA5) || negb (1 =? 1) then Ret (Er E_SYNC) else Ret (Ok s)).
    rewrite bind_assoc, runA_rdb by (try reflexivity; try lia). cbv beta.
    change (negb (165 =? 165) || negb (1 =? 1)) with false. cbn [bind]. rewrite Hp. unfold CFG, FRAME. cbn [Z.eqb orb].
    exists s. split; [reflexivity|]. split; [exact Sh|]. unfold after. repeat split; auto.
  - destruct V as (V2 & V3). rewrite <- app_assoc.
    destruct (label_header 12 lb (Z.of_nat (length bs)) ltac:(unfold max_type; lia) V2 ltac:(lia)) as [H1 H2].
    rewrite runA_header by assumption. cbv beta iota.
    unfold packet_body. cbn [Z.eqb Pos.eqb].
    rewrite bind_assoc, runA_skipb by (rewrite enc_bytes_len; lia). cbn [bind m_ptype]. rewrite Hp. cbn [Z.eqb CFG FRAME Pos.eqb orb].
    eexists. split; [reflexivity|]. split; [exact Sh|]. unfold after. cbn. repeat split; auto.
  - destruct V as (V1 & V2 & V3 & V4 & V5 & V6). rewrite <- !app_assoc.
    set (len := Z.of_nat (length (enc_scene sc ++ pad)) / 8) in *.
    assert (Hlen : Z.of_nat (length (enc_scene sc ++ pad)) = len * 8).
    { unfold len. rewrite (Z.div_mod (Z.of_nat (length (enc_scene sc ++ pad))) 8) at 1 by lia. lia. }
    assert (0 <= len) by (apply Z.div_pos; lia).
    destruct (label_header 3 lb len ltac:(unfold max_type; lia) V1 ltac:(lia)) as [H1 H2].
    rewrite runA_header by assumption. cbv beta iota.
    destruct (asi_parse_rt (m_asi s) sc (pad ++ rest) Sh V2 V3 (presets_checked _ _ V4))
      as (a & E & Sh' & F1 & F2 & F3 & F4 & F5 & F6 & F7 & F8 & F9).
    unfold packet_body. cbn [Z.eqb Pos.eqb]. rewrite bind_assoc, runA_bind.
    rewrite (runA_framed len (asi_parse (m_asi s)) _ a (enc_scene sc) rest pad eq_refl E)
      by (rewrite app_length in Hlen; lia).
    cbn [bind m_ptype]. rewrite Hp. cbn [Z.eqb CFG FRAME Pos.eqb orb].
    eexists. split; [reflexivity|]. split; [exact Sh'|]. unfold after, scene_held. cbn. repeat split; auto.
Qed.

(** What holds after a whole sequence. *)
Definition after_all (ps : list pkt) (s s' : mst) : Prop :=
  match last_scene ps with
  | Some sc => scene_held sc (m_asi s') /\ m_asip s' = 1
  | None => m_asi s' = m_asi s /\ m_asip s' = m_asip s
  end /\
  m_eip s' = (if has_user ps then 1 else m_eip s) /\
  m_ear s' = m_ear s /\ m_earp s' = m_earp s /\ m_pcm s' = m_pcm s /\
  m_ptype s' = 0 /\ m_pdata s' = m_pdata s /\ m_pcfg s' = m_pcfg s /\ m_err s' = 0.

Lemma scan_loop ty lb len : ty = 1 \/ ty = 2 -> label_ok lb -> 0 <= len <= max_length ->
  forall ps s f rest, Forall valid_pkt ps -> shape (m_asi s) -> m_ptype s = 0 -> m_err s = 0 ->
  (length ps < f)%nat ->
  exists s', runA (mhas_loop f s) (concat (map enc_pkt ps) ++ enc_header ty lb len ++ rest)
    = Done (Ok (s', (ty, lb, len)), rest) /\ shape (m_asi s') /\ after_all ps s s'.
Proof.
  intros Hty Hlb Hlen. induction ps as [|p ps IH]; intros s f rest HF Sh Hp He Hf; cbn [map concat].
  - destruct f as [|f]; [lia|]. cbn [mhas_loop app].
    destruct (label_header ty lb len ltac:(unfold max_type; lia) Hlb Hlen) as [H1 H2].
    rewrite runA_header by assumption. cbv beta iota. exists s.
    split; [|split; [exact Sh|]].
    + destruct Hty as [->| ->]; cbn; reflexivity.
    + unfold after_all. cbn. repeat split; auto.
  - cbn [length] in Hf. destruct f as [|f]; [lia|]. inversion HF; subst. rewrite <- app_assoc.
    destruct (pkt_step f p s (concat (map enc_pkt ps) ++ enc_header ty lb len ++ rest) H1 Sh Hp He)
      as (s1 & E1 & Sh1 & A1).
    rewrite E1. destruct A1 as (A0 & A2 & A3 & A4 & A5 & A6 & A7 & A8 & A9).
    destruct (IH s1 f rest H2 Sh1 A6 A9 ltac:(lia)) as (s' & E' & Sh' & B0 & B2 & B3 & B4 & B5 & B6 & B7 & B8 & B9).
    exists s'. split; [exact E'|]. split; [exact Sh'|].
    unfold after_all. cbn [last_scene has_user existsb].
    repeat split; auto; try congruence.
    + destruct (last_scene ps) as [sc|]; [exact B0|]. destruct B0 as [B0 B0']. rewrite B0, B0'.
      destruct p; exact A0.
    + rewrite B2, A2. fold (has_user ps). destruct p, (has_user ps); reflexivity.
Qed.

Theorem scan_stream n ps s ty lb len st rest :
  ty = 1 \/ ty = 2 -> label_ok lb -> 0 <= len <= max_length ->
  Forall valid_pkt ps -> shape (m_asi s) -> mst_ok s -> wf st -> r_cnt st < 16 * Z.of_nat n ->
  rest_bits st = concat (map enc_pkt ps) ++ enc_header ty lb len ++ rest ->
  exists s' st', exec (mhas_parse n s) st = Done (Ok (s', (ty, lb, len)), st') /\
    wf st' /\ rest_bits st' = rest /\
    match last_scene ps with
    | Some sc => scene_held sc (m_asi s') /\ m_asip s' = 1
    | None => m_asi s' = m_asi s /\ m_asip s' = m_asip s
    end /\
    m_eip s' = (if has_user ps then 1 else m_eip s) /\
    m_ear s' = m_ear s /\ m_pcm s' = m_pcm s /\ m_ptype s' = 0.
Proof.
  intros Hty Hlb Hlen HF Sh Hok W Hn HR.
  assert (OK : scan_ok st s).
  { destruct W as (W1 & W2 & W3 & W4 & W5). split; [exact W4|]. split; [exact W3|]. split; assumption. }
  set (m := Nat.max n (S (length ps))).
  destruct (mhas_parse_fuel n m st s OK Hn) as [E _].
  { unfold m. lia. }
  rewrite E.
  destruct (scan_loop ty lb len Hty Hlb Hlen ps
    (mkM (m_asi s) (m_asip s) (m_eip s) (m_ear s) (m_earp s) (m_pcm s) 0 0 (m_pcfg s) 0) m rest HF Sh eq_refl eq_refl)
    as (s' & E1 & Sh' & A0 & A1 & A2 & A3 & A4 & A5 & A6 & A7 & A8).
  { unfold m. lia. }
  pose proof (exec_refines (mhas_parse m s) st W) as R. rewrite HR in R.
  unfold mhas_parse in R at 2. rewrite runA_bind, E1 in R. rewrite A8 in R. cbn [Z.eqb runA agrees] in R.
  destruct R as (st' & R1 & R2 & R3). exists s', st'. cbn [m_asi m_asip m_eip m_ear m_pcm] in *.
  split; [exact R1|]. split; [exact R2|]. split; [exact R3|]. split; [exact A0|]. auto.
Qed.
