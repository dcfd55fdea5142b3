(** * MctProc: processing of the spectra by the multichannel coding tool

    Model of impeghd_mc_process and its two operations (impeghd_multichannel.c:746-826,
    899-955) and of the loop over the windows of a pair (ia_core_coder_process.c:
    1041-1060).  Spectra are lists of FLOAT32; an access outside a list is undefined.  The
    tables of cosines and sines are arguments.  Not modelled: stereo filling
    (ia_core_coder_process.c:972-1037) and the same processing of the four IGF source
    spectra (1062-1073); the windows are numbered through all groups. *)

From Coq Require Import ZArith List Lia Bool SpecFloat.
From Verif Require Import F32 BitBuf Prog Mct.
Import ListNotations.
Open Scope Z_scope.

Definition obind {A B} (x : outcome A) (f : A -> outcome B) : outcome B :=
  match x with Done a => f a | Jmp c => Jmp c | UB r => UB r end.
Notation "'olet' p := e1 'in' e2" := (obind e1 (fun p => e2))
  (at level 200, p pattern, e1 at level 100, e2 at level 200, right associativity).

(** Array accesses. *)
Definition oget {A} (l : list A) (i : Z) : outcome A :=
  if i <? 0 then UB UOob else match nth_error l (Z.to_nat i) with Some a => Done a | None => UB UOob end.
Definition oput {A} (l : list A) (i : Z) (a : A) : outcome (list A) :=
  if (i <? 0) || (Z.of_nat (length l) <=? i) then UB UOob
  else Done (firstn (Z.to_nat i) l ++ a :: skipn (S (Z.to_nat i)) l).

(** One line of impeghd_apply_mc_rotation, impeghd_multichannel.c:783-790. *)
Definition rot_line (cs sn : list f32) (idx : Z) (x y : f32) : outcome (f32 * f32) :=
  olet c := oget cs idx in
  olet s := oget sn idx in
  Done (f_sub (f_mul x c) (f_mul y s), f_add (f_mul x s) (f_mul y c)).

(** One line of impeghd_apply_mc_prediction, impeghd_multichannel.c:813-825. *)
Definition pred_line (dir q : Z) (x y : f32) : outcome (f32 * f32) :=
  let a := f_mul (of_int q) (lit 1 10) in
  Done (f_add (f_add x (f_mul a x)) y,
        if dir =? 0 then f_sub (f_sub x (f_mul a x)) y else f_add (f_add (SFopp x) (f_mul a x)) y).

Definition line_op (cs sn : list f32) (ty dir q : Z) (x y : f32) : outcome (f32 * f32) :=
  if ty =? 0 then pred_line dir q x y else rot_line cs sn q x y.

(** The loop of either operation over [n] lines from [at], impeghd_multichannel.c:778-793,
    813-827. *)
Fixpoint lines (op : f32 -> f32 -> outcome (f32 * f32)) (n : nat) (at_ : Z) (dr : list f32 * list f32)
  : outcome (list f32 * list f32) :=
  match n with
  | O => Done dr
  | S m =>
    olet x := oget (fst dr) at_ in
    olet y := oget (snd dr) at_ in
    olet lr := op x y in
    olet d := oput (fst dr) at_ (fst lr) in
    olet r := oput (snd dr) at_ (snd lr) in
    lines op m (at_ + 1) (d, r)
  end.

(** The loop over the bands, impeghd_multichannel.c:926-953; [left] bands are left, [base]
    is the first line of the window, [off] the first band of the window. *)
Fixpoint bands (cs sn : list f32) (ty dir : Z) (coef mask : list Z) (off base total : Z) (tbl : list Z)
    (left : nat) (band sfb : Z) (dr : list f32 * list f32) : outcome (list f32 * list f32) :=
  match left with
  | O => Done dr
  | S m =>
    olet k := oget mask (off + band) in
    olet dr := (if k =? 1 then
        olet start := (if sfb <? 0 then Done 0 else oget tbl sfb) in
        olet stop := (if sfb + 2 <? total then oget tbl (sfb + 2) else oget tbl (sfb + 1)) in
        olet q := oget coef (off + band) in
        lines (line_op cs sn ty dir q) (Z.to_nat (stop - start)) (base + start) dr
      else Done dr) in
    if total - 1 <=? sfb + 2 then Done dr
    else bands cs sn ty dir coef mask off base total tbl m (band + 1) (sfb + 2) dr
  end.

(** impeghd_mc_process, impeghd_multichannel.c:899-955, for pair [b]. *)
Definition mc_process (cs sn : list f32) (ty : Z) (b : box) (off bpw base bins total : Z) (tbl : list Z)
    (dr : list f32 * list f32) : outcome (list f32 * list f32) :=
  if (x_bw b =? 0) && (x_mf b =? 0) then
    olet q := oget (x_coef b) off in
    lines (line_op cs sn ty (x_dir b) q) (Z.to_nat bins) base dr
  else bands cs sn ty (x_dir b) (x_coef b) (x_mask b) off base total tbl (Z.to_nat bpw) 0 (-1) dr.

(** The windows of a pair, ia_core_coder_process.c:949-951, 1041-1060. *)
Fixpoint mc_windows (cs sn : list f32) (ty : Z) (b : box) (bpw bins total : Z) (tbl : list Z)
    (left : nat) (win : Z) (dr : list f32 * list f32) : outcome (list f32 * list f32) :=
  match left with
  | O => Done dr
  | S m =>
    olet dr := mc_process cs sn ty b (win * bpw) bpw (win * bins) bins total tbl dr in
    mc_windows cs sn ty b bpw bins total tbl m (win + 1) dr
  end.
Definition mc_apply (cs sn : list f32) (ty : Z) (b : box) (islong bins total : Z) (tbl : list Z) (nwin : nat)
    (dr : list f32 * list f32) : outcome (list f32 * list f32) :=
  mc_windows cs sn ty b (if islong =? 0 then x_nb b / 8 else x_nb b) bins total tbl nwin 0 dr.

(** ** The downmix of the frame before, for stereo filling *)

(** IA_MPEGH_DEC_EXE_FATAL_SFB_EXCEEDED_MAX, impeghd_error_codes.h:266. *)
Definition E_SFB : Z := 4294940708.

(** One line of impeghd_apply_mc_inverse_rotation, impeghd_multichannel.c:660-675, at line
    [at] of the spectra that are there; [old] is the line of the downmix. *)
Definition inv_line (cs sn : list f32) (idx : Z) (p1 p2 : option (list f32)) (at_ : Z) (old : f32) : outcome f32 :=
  olet a := (match p1 with
             | Some l => olet x := oget l at_ in olet c := oget cs idx in
                         let t := f_add (S754_zero false) (f_mul x c) in Done (t, t)
             | None => Done ((S754_zero false), old) end) in
  match p2 with
  | Some r => olet y := oget r at_ in olet s := oget sn idx in Done (f_add (fst a) (f_mul y s))
  | None => Done (snd a)
  end.

(** The loop over the lines; the two spectra and the downmix from the same line on. *)
Fixpoint inv_lines (cs sn : list f32) (idx : Z) (p1 p2 : option (list f32)) (n : nat) (at_ : Z) (dmx : list f32) : outcome (list f32) :=
  match n with
  | O => Done dmx
  | S m =>
    olet old := oget dmx at_ in
    olet v := inv_line cs sn idx p1 p2 at_ old in
    olet dmx := oput dmx at_ v in
    inv_lines cs sn idx p1 p2 m (at_ + 1) dmx
  end.

(** The loop over the bands, impeghd_multichannel.c:736-763; returns the error code and the
    downmix.  [left] counts the 64 bands down. *)
Fixpoint dmx_bands (cs sn : list f32) (p1 p2 : option (list f32)) (mask coef : list Z) (bpw total : Z) (tbl : list Z)
    (left : nat) (band sfb : Z) (dmx : list f32) : outcome (Z * list f32) :=
  match left with
  | O => Done (0, dmx)
  | S m =>
    olet k := oget mask band in
    olet a := (if negb (k =? 0) && (band <? bpw) then oget coef band else Done 32) in
    olet start := (if sfb <? 0 then Done 0 else oget tbl sfb) in
    if total <=? sfb + 1 then Done (E_SFB, dmx)
    else
      olet stop := (if sfb + 2 <? total then oget tbl (sfb + 2) else oget tbl (sfb + 1)) in
      olet dmx := inv_lines cs sn a p1 p2 (Z.to_nat (stop - start)) start dmx in
      if total <=? sfb + 2 then Done (0, dmx)
      else dmx_bands cs sn p1 p2 mask coef bpw total tbl m (band + 1) (sfb + 2) dmx
  end.

(** impeghd_mc_get_prev_dmx, impeghd_multichannel.c:698-765, for one window, with the
    spectra, the masks and the coefficients from that window on. *)
Fixpoint half_lines (rev : Z) (l r : list f32) (n : nat) (at_ : Z) (dmx : list f32) : outcome (list f32) :=
  match n with
  | O => Done dmx
  | S m =>
    olet x := oget l at_ in
    olet y := oget r at_ in
    olet dmx := oput dmx at_ (f_mul (lit 1 2) (if rev =? 0 then f_add x y else f_sub x y)) in
    half_lines rev l r m (at_ + 1) dmx
  end.
Definition prev_dmx (cs sn : list f32) (ty bw mf rev : Z) (p1 p2 : option (list f32)) (mask coef : list Z)
    (bpw bins total : Z) (tbl : list Z) (dmx : list f32) : outcome (Z * list f32) :=
  if ty =? 0 then
    match p1, p2 with
    | Some l, Some r => olet d := half_lines rev l r (Z.to_nat bins) 0 dmx in Done (0, d)
    | _, _ => Done (0, dmx)
    end
  else if (bw =? 0) && (mf =? 0) then
    olet a := oget coef 0 in
    olet d := inv_lines cs sn a p1 p2 (Z.to_nat bins) 0 dmx in Done (0, d)
  else dmx_bands cs sn p1 p2 mask coef bpw total tbl 64 0 (-1) dmx.

(** The tables, impeghd_multichannel_rom.c:129-153, in millionths. *)
Definition sin_millionths : list Z := [
  -1000000; -998795; -995185; -989177; -980785; -970031; -956940;
  -941544; -923880; -903989; -881921; -857729; -831470; -803208;
  -773010; -740951; -707107; -671559; -634393; -595699; -555570;
  -514103; -471397; -427555; -382683; -336890; -290285; -242980;
  -195090; -146730; -98017; -49068; 0; 49068; 98017;
  146730; 195090; 242980; 290285; 336890; 382683; 427555;
  471397; 514103; 555570; 595699; 634393; 671559; 707107;
  740951; 773010; 803208; 831470; 857729; 881921; 903989;
  923880; 941544; 956940; 970031; 980785; 989177; 995185;
  998795; 1000000].
Definition cos_millionths : list Z := [
  0; 49068; 98017; 146730; 195090; 242980; 290285; 336890;
  382683; 427555; 471397; 514103; 555570; 595699; 634393; 671559;
  707107; 740951; 773010; 803208; 831470; 857729; 881921; 903989;
  923880; 941544; 956940; 970031; 980785; 989177; 995185; 998795;
  1000000; 998795; 995185; 989177; 980785; 970031; 956940; 941544;
  923880; 903989; 881921; 857729; 831470; 803208; 773010; 740951;
  707107; 671559; 634393; 595699; 555570; 514103; 471397; 427555;
  382683; 336890; 290285; 242980; 195090; 146730; 98017; 49068;
  0].
Definition rom_sin : list f32 := map (fun n => lit n 1000000) sin_millionths.
Definition rom_cos : list f32 := map (fun n => lit n 1000000) cos_millionths.
