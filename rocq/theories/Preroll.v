(** * Preroll: access units carried inside the first extension element of an access unit
    (decoder/ia_core_coder_decode_main.c:817-904, 2603-2716, 2859-2929) and the output the
    caller gets for them (impeghd_api.c:1062-1092). *)
From Coq Require Import ZArith List Lia Bool.
From Verif Require Import Bits BitBuf Prog.
Import ListNotations.
Open Scope Z_scope.

(** impeghd_error_codes.h; ia_core_coder_config.h:277 *)
Definition E_NUM_PRE_ROLLS := 0xFFFF9815.
Definition E_UNEXPECTED := 0xFFFF9012.
Definition MAX_PREROLLS : Z := 1.
(** UWORD8 config[288], decode_main.c:2383 *)
Definition CONFIG_SIZE : nat := 288.

(** preroll_units, the offsets (as numbers of bits left), the configuration (array) and
    its length. *)
Record pre := mkPre { p_units : Z; p_left : list Z; p_conf : list Z; p_clen : Z }.
Definition no_config : list Z := repeat 0 CONFIG_SIZE.

(** escapedValue(4, 4, 8), decode_main.c:852-862. *)
Definition rd_clen : prog Z :=
  v <- rd 4 ;;
  if v =? 15 then
    v <- rd 4 ;;
    if v =? 15 then w <- rd 8 ;; Ret (w + 15 + 15) else Ret (v + 15)
  else Ret v.

(** decode_main.c:864-865 *)
Definition conf_byte (i : nat) (c : list Z) : prog (list Z) :=
  b <- rd 8 ;; aset c (Z.of_nat i) b.

(** decode_main.c:881-899: one access unit is skipped; the place is kept as the number of
    bits left. *)
Definition one_unit (i : nat) (l : list Z) : prog (res (list Z)) :=
  n <- rd 16 ;;
  n <- (if n =? 65535 then m <- rd 16 ;; Ret (m + 65535) else Ret n) ;;
  c <- avail ;;
  if c <? 8 * n then Ret (Er E_UNEXPECTED)
  else skip (8 * n) ;;; Ret (Ok (l ++ [c])).

(** ia_core_coder_audio_preroll_parsing, decode_main.c:817-904; [ext] tells whether the
    first element is an extension element.  The length of the element (842-850) is read and
    not used. *)
Definition parse_preroll (ext : bool) : prog (res pre) :=
  if negb ext then Ret (Ok (mkPre 0 [] no_config 0)) else
  w <- peek 3 ;;
  if negb ((w / 2) mod 2 =? 1) then Ret (Ok (mkPre 0 [] no_config 0))
  else if negb (w mod 2 =? 0) then Ret (Ok (mkPre (-1) [] no_config 0))
  else
    skip 3 ;;;
    l <- rd 8 ;;
    _ <- (if l =? 255 then rd 16 else Ret 0) ;;
    clen <- rd_clen ;;
    conf <- forP (Z.to_nat clen) 0 conf_byte no_config ;;
    skip 2 ;;;
    n <- rd 2 ;;
    n <- (if n =? 3 then m <- rd 4 ;; Ret (m + 3) else Ret n) ;;
    if MAX_PREROLLS <? n then Ret (Er E_NUM_PRE_ROLLS)
    else
      r <- forR (Z.to_nat n) 0 one_unit [] ;;
      match r with
      | Er c => Ret (Er c)
      | Ok places => Ret (Ok (mkPre n places conf clen))
      end.

(** ** Which access units are decoded *)

(** preroll_config_present, preroll_config_prev. *)
Record pst := mkPst { q_present : bool; q_prev : list Z }.

Fixpoint bytes_eq (a b : list Z) : bool :=
  match a, b with
  | [], [] => true
  | x :: a, y :: b => (x =? y) && bytes_eq a b
  | _, _ => false
  end.

(** The do loop, decode_main.c:2618-2926, as the list of the offsets at which access units
    are decoded and whether the configuration is parsed before each.  [off] is
    preroll_frame_offset, [au] is access_units.  [None]: outside the array. *)
Definition put0 (l : list Z) (v : Z) : list Z := match l with [] => [] | _ :: t => v :: t end.
Fixpoint unit_loop (fuel : nat) (clen : Z) (conf : list Z) (main : Z) (q : pst) (change : bool) (units : Z) (off : list Z) (au : nat)
  : option (list (Z * bool) * pst) :=
  match fuel with
  | O => None
  | S fuel =>
    let '(q, change, units, off) :=
      if clen =? 0 then (q, change, units, off)
      else if q_present q then
        if bytes_eq (q_prev q) conf then (q, false, -1, put0 off main)
        else (mkPst true conf, true, units, off)
      else (mkPst true conf, change, -1, put0 off main) in
    match nth_error off au with
    | None => None
    | Some o =>
      let here := (o, negb (clen =? 0) && change) in
      if 0 <=? units - 1 then
        match unit_loop fuel clen conf main q change (units - 1) off (S au) with
        | None => None
        | Some (l, q) => Some (here :: l, q)
        end
      else Some ([here], q)
    end
  end.

(** decode_main.c:2603-2617: with a result of the parser. *)
Definition units_decoded (size main : Z) (p : pre) (q : pst) : option (list (Z * bool) * pst) :=
  let units := if p_units p =? -1 then 0 else p_units p in
  let off := map (fun c => size - c) (p_left p) ++ repeat 0 (4 - length (p_left p)) in
  let off := firstn (Z.to_nat units) off ++ main :: skipn (S (Z.to_nat units)) off in
  unit_loop 6 (p_clen p) (p_conf p) main q false units off 0.

(** ** The output of the call *)

(** impeghd_api.c:1062-1087 with discard_au_preroll set: [b0 b1] are the bytes written for
    the first and second access unit (0: none), [out] the output buffer.  The move takes
    [n] bytes from offset [k]. *)
Definition units_with_output (b0 b1 : Z) : Z := if b0 =? 0 then 0 else if b1 =? 0 then 1 else 2.
Definition output_of (b0 b1 : Z) (out : list Z) : Z * list Z :=
  let k := match units_with_output b0 b1 with
           | 0 => b0 - b0
           | 1 => b0 + b1 - b0
           | _ => b0 + 0 + b1 - b0   (* preroll_bytes[2] is 0 *)
           end in
  (b0, firstn (Z.to_nat b0) (skipn (Z.to_nat k) out)).
