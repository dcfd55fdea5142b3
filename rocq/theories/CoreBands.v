(** * CoreBands: which scale factor bands a sampling rate has

    Model of the choice of the tables in ia_core_coder_decode_init,
    /repo/decoder/ia_core_coder_create.c:258-266 and 284-286, and of ia_core_coder_info_init
    (128-223), for frames of 1024 lines (any other length is refused, 282-283). *)

From Coq Require Import ZArith List Bool.
From Verif Require Import Bits BitBuf CoreIcs CoreScf.
Import ListNotations.
Open Scope Z_scope.

(** ia_core_coder_sampling_boundaries, ia_core_coder_rom.c:1390-1391. *)
Definition boundaries : list Z :=
  [92017; 75132; 55426; 46009; 37566; 27713; 23004; 18783; 13856; 11502; 9391; 0; 0; 0; 0; 0].

(** 258-266, with SAMPLE_BOUNDARY = 11 (ia_core_coder_cnst.h:77): the loop ends at 11 at the
    latest, so the error of 264-265 never occurs and is left out. *)
Fixpoint rate_loop (n : nat) (i rate : Z) : outcome Z :=
  match n with
  | O => Done i
  | S m => olet b := oget boundaries i in if b <=? rate then Done i else rate_loop m (i + 1) rate
  end.
Definition rate_index (rate : Z) : outcome Z := rate_loop 11 0 rate.

(** Upper ends of the bands of a long window, ia_core_coder_rom.c:1327-1385. *)
Definition sfb_96_1024 : list Z := [4; 8; 12; 16; 20; 24; 28; 32; 36; 40; 44; 48; 52; 56; 64; 72; 80; 88; 96; 108; 120; 132; 144; 156; 172; 188; 212; 240; 276; 320; 384; 448; 512; 576; 640; 704; 768; 832; 896; 960; 1024].
Definition sfb_64_1024 : list Z := [4; 8; 12; 16; 20; 24; 28; 32; 36; 40; 44; 48; 52; 56; 64; 72; 80; 88; 100; 112; 124; 140; 156; 172; 192; 216; 240; 268; 304; 344; 384; 424; 464; 504; 544; 584; 624; 664; 704; 744; 784; 824; 864; 904; 944; 984; 1024].
Definition sfb_48_1024 : list Z := [4; 8; 12; 16; 20; 24; 28; 32; 36; 40; 48; 56; 64; 72; 80; 88; 96; 108; 120; 132; 144; 160; 176; 196; 216; 240; 264; 292; 320; 352; 384; 416; 448; 480; 512; 544; 576; 608; 640; 672; 704; 736; 768; 800; 832; 864; 896; 928; 1024].
Definition sfb_32_1024 : list Z := [4; 8; 12; 16; 20; 24; 28; 32; 36; 40; 48; 56; 64; 72; 80; 88; 96; 108; 120; 132; 144; 160; 176; 196; 216; 240; 264; 292; 320; 352; 384; 416; 448; 480; 512; 544; 576; 608; 640; 672; 704; 736; 768; 800; 832; 864; 896; 928; 960; 992; 1024].
Definition sfb_24_1024 : list Z := [4; 8; 12; 16; 20; 24; 28; 32; 36; 40; 44; 52; 60; 68; 76; 84; 92; 100; 108; 116; 124; 136; 148; 160; 172; 188; 204; 220; 240; 260; 284; 308; 336; 364; 396; 432; 468; 508; 552; 600; 652; 704; 768; 832; 896; 960; 1024].
Definition sfb_16_1024 : list Z := [8; 16; 24; 32; 40; 48; 56; 64; 72; 80; 88; 100; 112; 124; 136; 148; 160; 172; 184; 196; 212; 228; 244; 260; 280; 300; 320; 344; 368; 396; 424; 456; 492; 532; 572; 616; 664; 716; 772; 832; 896; 960; 1024].
Definition sfb_8_1024 : list Z := [12; 24; 36; 48; 60; 72; 84; 96; 108; 120; 132; 144; 156; 172; 188; 204; 220; 236; 252; 268; 288; 308; 328; 348; 372; 396; 420; 448; 476; 508; 544; 580; 620; 664; 712; 764; 820; 880; 944; 1024].
(** ptr_sfb_1024 of ia_core_coder_samp_rate_info, ia_core_coder_rom.c:1393-1413. *)
Definition long_tab : list (list Z) :=
  [sfb_96_1024; sfb_96_1024; sfb_64_1024; sfb_48_1024; sfb_48_1024; sfb_32_1024; sfb_24_1024;
   sfb_24_1024; sfb_16_1024; sfb_16_1024; sfb_16_1024; sfb_8_1024; sfb_8_1024; []; []; []].

(** What is written of an ia_sfb_info_struct: sfb_per_sbk, sfb_width (an array of 64 or 16),
    sfb_idx_tbl[125]. *)
Record binfo := mkBi { b_n : Z; b_width : list Z; b_idx : list Z }.

(** 160-168 and 188-196. *)
Fixpoint put_widths (n : nat) (sfb : Z) (tbl : list Z) (w : list Z) : outcome (list Z) :=
  match n with
  | O => Done w
  | S m =>
    olet x := oget tbl sfb in
    olet y := oget tbl (sfb - 1) in
    olet w := oput w sfb (x - y) in
    put_widths m (sfb + 1) tbl w
  end.
Definition set_widths (nsb : Z) (tbl w : list Z) : outcome (list Z) :=
  if nsb =? 0 then Done w
  else olet x := oget tbl 0 in olet w := oput w 0 x in put_widths (Z.to_nat (nsb - 1)) 1 tbl w.

(** 212-216, from the last band down. *)
Fixpoint put_ends (n : nat) (tbl : list Z) (k off : Z) (idx : list Z) : outcome (list Z) :=
  match n with
  | O => Done idx
  | S m => olet x := oget tbl (Z.of_nat m) in olet idx := oput idx (k + Z.of_nat m) (s16 (x + s16 off)) in put_ends m tbl k off idx
  end.
(** 204-220; [bins] is bins_per_sbk. *)
Fixpoint put_windows (n : nat) (nsb : nat) (tbl : list Z) (bins k off : Z) (idx : list Z) : outcome (list Z) :=
  match n with
  | O => Done idx
  | S m => olet idx := put_ends nsb tbl k off idx in put_windows m nsb tbl bins (k + Z.of_nat nsb) (off + bins) idx
  end.

(** 128-223; num_sfb_1024 and num_sfb_128 come from the table, as the tables they count do. *)
Definition info_init (rate : Z) (l s : binfo) : outcome (binfo * binfo) :=
  olet i := rate_index rate in
  match nth_error rate_tab (Z.to_nat i), nth_error long_tab (Z.to_nat i) with
  | Some (nl, short), Some long =>
    let ns := Z.of_nat (length short) in
    olet wl := set_widths nl long (b_width l) in
    olet ws := set_widths ns short (b_width s) in
    olet il := put_windows 1 (Z.to_nat nl) long 1024 0 0 (b_idx l) in
    olet is_ := put_windows 8 (Z.to_nat ns) short 128 0 0 (b_idx s) in
    Done (mkBi nl wl il, mkBi ns ws is_)
  | _, _ => UB UOob
  end.
