(** * Pcm: conversion of the decoded samples to the output format

    Models ia_core_coder_samples_sat, ia_core_coder_decode_main.c:195-316.  Samples are
    binary32 numbers (F32.v); the result of the model is the byte string written to the
    output buffer.  [None] is undefined behaviour: an access outside channel_pos[24] or the
    conversion to integer of a number that does not fit (C11 6.3.1.4). *)

From Coq Require Import ZArith List Lia Bool SpecFloat.
From Verif Require Import F32.
Import ListNotations.
Open Scope Z_scope.

Notation "'obind' x <- c ; k" := (match c with Some x => k | None => None end)
  (at level 200, x pattern, c at level 100, k at level 200).

(** The C conversion of a FLOAT32 to an integer type with range [lo, hi]: truncation
    toward zero, undefined if the result does not fit. *)
Definition trunc (x : f32) : option Z :=
  match x with
  | S754_zero _ => Some 0
  | S754_finite s m e => Some (cond_Zopp s (Z.shiftl (Zpos m) e))
  | _ => None
  end.
Definition to_int (lo hi : Z) (x : f32) : option Z :=
  obind n <- trunc x ; if (lo <=? n) && (n <=? hi) then Some n else None.

(** Constants, ia_core_coder_cnst.h:42-53.  The two 32-bit limits are literals with
    suffix f, so both are rounded to a power of two. *)
Definition MIN_FLT_VAL_24 := of_int (-8388608).
Definition MAX_FLT_VAL_24 := of_int 8388607.
Definition MUL_FAC_PCM_24 := of_int 256.
Definition MIN_FLT_VAL_16 := of_int (-32768).
Definition MAX_FLT_VAL_16 := of_int 32767.
Definition MIN_FLT_VAL_32 := of_int (-2147483647).
Definition MAX_FLT_VAL_32 := of_int 2147483647.
Definition MUL_FAC_PCM_32 := of_int 65536.

(** The two comparisons of decode_main.c:250-257, 277-284 and 299-306. *)
Definition limit (lo hi x : f32) : f32 := if f_lt x lo then lo else if f_lt hi x then hi else x.

(** One sample, decode_main.c:248-262 (24 bits), 275-285 (16 bits) and 297-312 (other
    sizes).  The 16-bit case stores a WORD16; the target is little-endian. *)
Definition byte (n k : Z) : Z := Z.land (Z.shiftr n k) 255.
Definition put24 (x : f32) : option (list Z) :=
  obind n <- to_int (- 2 ^ 31) (2 ^ 31 - 1) (limit MIN_FLT_VAL_24 MAX_FLT_VAL_24 (f_mul x MUL_FAC_PCM_24)) ;
  Some [byte n 0; byte n 8; byte n 16].
Definition put16 (x : f32) : option (list Z) :=
  obind n <- to_int (- 2 ^ 15) (2 ^ 15 - 1) (limit MIN_FLT_VAL_16 MAX_FLT_VAL_16 x) ;
  Some [byte n 0; byte n 8].
Definition put32 (x : f32) : option (list Z) :=
  obind n <- to_int (- 2 ^ 31) (2 ^ 31 - 1) (limit MIN_FLT_VAL_32 MAX_FLT_VAL_32 (f_mul x MUL_FAC_PCM_32)) ;
  Some [byte n 0; byte n 8; byte n 16; byte n 24].
Definition put (pcm : Z) (x : f32) : option (list Z) :=
  if pcm =? 24 then put24 x else if pcm =? 16 then put16 x else put32 x.

(** Array accesses: [None] outside. *)
Definition get {A} (l : list A) (i : Z) : option A :=
  if (0 <=? i) then nth_error l (Z.to_nat i) else None.
Definition set {A} (l : list A) (i : Z) (v : A) : option (list A) :=
  if (0 <=? i) && (i <? Z.of_nat (length l))
  then Some (firstn (Z.to_nat i) l ++ v :: skipn (S (Z.to_nat i)) l) else None.

(** The loop over the channel map, decode_main.c:231-236: the map (entries -1 replaced)
    and channel_pos. *)
Fixpoint place (k : nat) (ch : Z) (map pos : list Z) : option (list Z * list Z) :=
  match k with
  | O => Some (map, pos)
  | S k =>
    obind v <- get map ch ;
    obind map <- (if v =? -1 then set map ch ch else Some map) ;
    obind v <- get map ch ;
    obind pos <- set pos v ch ;
    place k (ch + 1) map pos
  end.

(** The inner loop over channels and the outer loop over samples, 244-246, 271-273 and
    293-295; [x ch s] is out_samples[ch][s]. *)
Fixpoint put_channels (k : nat) (ch : Z) (pcm : Z) (pos : list Z) (x : Z -> f32) : option (list Z) :=
  match k with
  | O => Some []
  | S k =>
    obind c <- get pos ch ;
    obind b <- put pcm (x c) ;
    obind r <- put_channels k (ch + 1) pcm pos x ;
    Some (b ++ r)
  end.
Fixpoint put_samples (k : nat) (s : Z) (nch : nat) (pcm : Z) (pos : list Z) (x : Z -> Z -> f32) : option (list Z) :=
  match k with
  | O => Some []
  | S k =>
    obind b <- put_channels nch 0 pcm pos (fun c => x c s) ;
    obind r <- put_samples k (s + 1) nch pcm pos x ;
    Some (b ++ r)
  end.

Record pcm_out := mkPO {
  po_bytes : list Z;     (* bytes written at outbuffer *)
  po_map : list Z;       (* out_ch_map afterwards *)
  po_delay : Z;          (* *ptr_delay_samples afterwards *)
  po_count : Z           (* *out_bytes *)
}.

(** ia_core_coder_samples_sat, decode_main.c:209-316. *)
Definition samples_sat (n pcm : Z) (x : Z -> Z -> f32) (map : list Z) (delay nch : Z) : option pcm_out :=
  let '(num, delay') := if delay <=? n then (nch * (n - delay), 0) else (0, delay - n) in
  obind (map, pos) <- place (Z.to_nat nch) 0 map (repeat 0 24) ;
  obind bytes <- put_samples (Z.to_nat (n - delay)) delay (Z.to_nat nch) pcm pos x ;
  Some (mkPO bytes map delay' (num * Z.shiftr pcm 3)).

(** The access units of one call (the unit and its pre-roll), decode_main.c:2893-2927:
    each is written behind the previous one, the channel map and the delay are kept. *)
Fixpoint put_units (us : list (Z -> Z -> f32)) (n pcm : Z) (map : list Z) (delay nch : Z) : option (list Z * Z) :=
  match us with
  | [] => Some ([], 0)
  | x :: us =>
    obind o <- samples_sat n pcm x map delay nch ;
    obind (bs, c) <- put_units us n pcm (po_map o) (po_delay o) nch ;
    Some (po_bytes o ++ bs, po_count o + c)
  end.
