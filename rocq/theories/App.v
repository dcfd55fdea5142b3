(** * App: the input loops of the test application (test/impeghd_main.c:567-790)
    for an input file that is not MP4 (mp4/impeghd_mp4_file_wrapper.c:133-134: fread).
    The decoder is any machine [init]/[exec] taking the bytes presented and answering a
    code and the bytes it reports as consumed; output files and messages are left out. *)
From Coq Require Import ZArith List Lia Bool.
From Verif Require Import Bits BitBuf.
Import ListNotations.
Open Scope Z_scope.

(** pb_inp_buf (of ui_inp_size bytes), i_buff_size, pstr_out_cfg->i_bytes_consumed and what
    is left of the file. *)
Record apst := mkApp { ap_mem : list Z; ap_size : Z; ap_cons : Z; ap_file : list Z }.

Definition blen (l : list Z) : Z := Z.of_nat (length l).
Definition put (l : list Z) (i v : Z) : option (list Z) :=
  if (0 <=? i) && (i <? blen l) then Some (firstn (Z.to_nat i) l ++ v :: skipn (S (Z.to_nat i)) l) else None.

(** The copy loop, impeghd_main.c:583-586, 700-703: [n] iterations from index [i]. *)
Fixpoint shift (n : nat) (i c : Z) (mem : list Z) : option (list Z) :=
  match n with
  | O => Some mem
  | S n =>
    match get_byte mem (i + c) with
    | None => None
    | Some v => match put mem i v with None => None | Some mem => shift n (i + 1) c mem end
    end
  end.

(** fread of at most [cap] bytes to index [at_] of the buffer. *)
Definition fread (mem : list Z) (at_ cap : Z) (file : list Z) : option (list Z * Z * list Z) :=
  if at_ <? 0 then None
  else
    let k := Z.min cap (blen file) in
    if blen mem <? at_ + k then None
    else Some (firstn (Z.to_nat at_) mem ++ firstn (Z.to_nat k) file ++ skipn (Z.to_nat (at_ + k)) mem, k,
               skipn (Z.to_nat k) file).

(** impeghd_main.c:581-591 and 698-709.  [Some (None, s)]: the test skipped it; otherwise
    the number of bytes read. *)
Definition refill (s : apst) : option (option Z * apst) :=
  let n := blen (ap_mem s) in
  if 0 <? n - (ap_size s - ap_cons s) then
    match shift (Z.to_nat (ap_size s - ap_cons s)) 0 (ap_cons s) (ap_mem s) with
    | None => None
    | Some mem =>
      match fread mem (ap_size s - ap_cons s) (n - (ap_size s - ap_cons s)) (ap_file s) with
      | None => None
      | Some (mem, k, file) => Some (Some k, mkApp mem (ap_size s - (ap_cons s - k)) (ap_cons s) file)
      end
    end
  else Some (None, s).

(** What the decoder is given: num_inp_bytes bytes of the buffer. *)
Definition presented (s : apst) : option (list Z) :=
  if (0 <=? ap_size s) && (ap_size s <=? blen (ap_mem s)) then Some (firstn (Z.to_nat (ap_size s)) (ap_mem s)) else None.

Inductive ending (D : Type) :=
| Ready (d : D) (s : apst)        (* initialisation complete *)
| Finished (d : D) (s : apst)     (* left the execute loop *)
| GaveUp (d : D) (s : apst)       (* goto exit_path *)
| Undefined
| NoFuel.
Arguments Ready {D}. Arguments Finished {D}. Arguments GaveUp {D}. Arguments Undefined {D}. Arguments NoFuel {D}.

(** One entry of the trace: the bytes presented and the number reported as consumed. *)
Definition trace := list (list Z * Z).

Section Loops.
  Context {D : Type}.
  (** code, bytes consumed, initialisation complete, new state *)
  Variable init : D -> list Z -> Z * Z * bool * D.
  Variable exec : D -> list Z -> Z * Z * D.

  (** impeghd_main.c:579-612; [err] is err_code_reinit. *)
  Fixpoint init_loop (fuel : nat) (d : D) (s : apst) (err : Z) (t : trace) : ending D * trace :=
    match fuel with
    | O => (NoFuel, t)
    | S fuel =>
      match refill s with
      | None => (Undefined, t)
      | Some (k, s) =>
        let stop := match k with
                    | None => false
                    | Some k => (ap_size s <=? 0) || ((err =? 0x1000) && (k =? 0))
                    end in
        if stop then (GaveUp d s, t)
        else
          match presented s with
          | None => (Undefined, t)
          | Some bs =>
            let '(code, used, done, d) := init d bs in
            let s := mkApp (ap_mem s) (ap_size s) used (ap_file s) in
            let t := t ++ [(bs, used)] in
            if (code =? 0x1001) || (code =? 0x1002) || (code =? 0x1003) then (GaveUp d s, t)
            else if done then (Ready d s, t)
            else init_loop fuel d s code t
          end
      end
    end.

  (** impeghd_main.c:696-790 *)
  Fixpoint exec_loop (fuel : nat) (d : D) (s : apst) (t : trace) : ending D * trace :=
    match fuel with
    | O => (NoFuel, t)
    | S fuel =>
      match refill s with
      | None => (Undefined, t)
      | Some (_, s) =>
        if ap_size s <=? 0 then (Finished d s, t)
        else
          match presented s with
          | None => (Undefined, t)
          | Some bs =>
            let '(code, used, d) := exec d bs in
            let s := mkApp (ap_mem s) (ap_size s) used (ap_file s) in
            let t := t ++ [(bs, used)] in
            if (code =? 0x1801) || (code =? 0x1802) || (code =? 0x1803) then (GaveUp d s, t)
            else exec_loop fuel d s t
          end
      end
    end.

  (** impeghd_main.c:567-790: the buffer starts empty (577-578). *)
  Definition run (fuel : nat) (d : D) (mem file : list Z) : ending D * trace :=
    match init_loop fuel d (mkApp mem 0 0 file) 0 [] with
    | (Ready d s, t) => exec_loop fuel d s t
    | r => r
    end.
End Loops.
