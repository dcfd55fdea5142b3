(** * The samples handed to an external renderer *)
From Coq Require Import ZArith List Lia Bool.
From Verif Require Import F32 Pcm.
Import ListNotations.
Open Scope Z_scope.

(** One sample, decode_main.c:2084-2090: the product is converted to a 32-bit integer first
    and limited to 24 bits afterwards.  None: the conversion is not defined.  MAX_24 and
    MIN_24 are ia_core_coder_constants.h:88-89; the cast of 0xFF800000 gives -8388608 on the
    two's complement targets. *)
Definition MAX_24 := 8388607.
Definition MIN_24 := -8388608.
Definition x24 (x : f32) : option (list Z) :=
  obind n <- to_int (- 2 ^ 31) (2 ^ 31 - 1) (f_mul x (of_int 256)) ;
  let n := Z.max (Z.min n MAX_24) MIN_24 in
  Some [byte n 0; byte n 8; byte n 16].

(** The inner loop, decode_main.c:2082-2091, and the outer loop, 2080-2092: [k] rounds from
    the index given. *)
Fixpoint x_chans (x : Z -> Z -> f32) (s ch : Z) (k : nat) : option (list Z) :=
  match k with
  | O => Some []
  | S k => obind b <- x24 (x ch s) ; obind r <- x_chans x s (ch + 1) k ; Some (b ++ r)
  end.
Fixpoint x_samps (x : Z -> Z -> f32) (nch s : Z) (k : nat) : option (list Z) :=
  match k with
  | O => Some []
  | S k => obind b <- x_chans x s 0 (Z.to_nat nch) ; obind r <- x_samps x nch (s + 1) k ; Some (b ++ r)
  end.

(** decode_main.c:2074-2096: the bytes written and the length reported.  [x channel sample]
    is the decoded signal; the number of channels is the sum over the three kinds of signals.
    The frame length is the core coder's (1024, ia_core_coder_create.c:417), the length
    reported uses AUDIO_CODEC_FRAME_SIZE_MAX (impd_drc_common.h:44). *)
Definition x_pcm (x : Z -> Z -> f32) (num_ch num_audio_obj num_hoa_transport_ch ccfl : Z) : option (list Z * Z) :=
  let nch := num_ch + num_audio_obj + num_hoa_transport_ch in
  obind b <- x_samps x nch 0 (Z.to_nat ccfl) ;
  Some (b, 3 * 1024 * nch).
