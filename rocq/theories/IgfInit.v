(** * IgfInit: the bands and tiles of the gap filling

    Models ia_core_coder_igf_get_igf_min (585-604), ia_core_coder_igf_get_num_tiles (760-816)
    and the ranges set by ia_core_coder_igf_init (2171-2280) of
    /repo/decoder/ia_core_coder_igf_dec.c, for frames of 1024 lines and the band tables that
    ia_core_coder_info_init chooses (CoreBands.v).  The flags of the configuration that are only
    copied (2194-2207) and the reset of the channels (2276-2278) are not modelled. *)

From Coq Require Import ZArith List Bool.
From Verif Require Import BitBuf Arith CoreIcs CoreBands Igf.
Import ListNotations.
Open Scope Z_scope.

(** 585-604; ccfl is 1024.  [fs] below 2 divides by zero. *)
Definition igf_min (wt fs : Z) : out Z :=
  let bl := if wt =? 2 then 512 else if wt =? 1 then 128 else 1024 in
  if fs / 2 =? 0 then Bad
  else let m := (bl * 1125) / (fs / 2) in Got (m + m mod 2).

(** The loop of 785-789.  [tbl] holds the band ends, so swb_offset[j] is its entry j - 1; the
    fuel is the number of bands. *)
Fixpoint border (fuel : nat) (lim : Z) (tbl : list Z) (j : Z) : out Z :=
  olet x := tab tbl (j - 1) in
  if x <? lim then match fuel with O => Stuck | S f => border f lim tbl (j + 1) end else Got j.

(** The loop over the tiles, 782-814; [k] tiles to go, [i] those done. *)
Fixpoint tile_loop (k : nat) (i sbs mem start stop end_ quarter : Z) (hires : bool) (tbl acc : list Z) :
    out (list Z) :=
  match k with
  | O => Got acc
  | S k =>
    olet j := border (length tbl) (Z.min (sbs + quarter) end_) tbl 1 in
    let j := if hires then j
             else if i =? 3 then stop
             else if Z.odd (j - start) && (1 <? j - mem) then j - 1 else j in
    let mem := if hires then mem else j in
    olet x := tab tbl (j - 1) in
    let t := Z.max 2 (Z.min (x - sbs) (end_ - sbs)) in
    if sbs + t =? end_ then Got (acc ++ [t])
    else tile_loop k (i + 1) (sbs + t) mem start stop end_ quarter hires tbl (acc ++ [t])
  end.

(** 760-816: the sizes of the tiles; igf_num_tiles is their number. *)
Definition tiles_of (start stop min : Z) (hires : bool) (tbl : list Z) : out (list Z) :=
  olet b := tab tbl (start - 1) in
  olet e := tab tbl (stop - 1) in
  let range := Z.max 8 (e - b) in
  if (min <? b) && (b <? e) then tile_loop 4 0 b start start stop e (range / 4) hires tbl []
  else Got [].

(** The search of 2231-2252, one of the two borders: the number of the first short band that
    ends at or above [lim]; -1 if there is none. *)
Fixpoint short_band (lim : Z) (tbl : list Z) (sfb : Z) : Z :=
  match tbl with
  | [] => -1
  | x :: r => if lim <=? x then sfb + 1 else short_band lim r (sfb + 1)
  end.

(** 2209-2229. *)
Definition start_long (n idx : Z) : Z := Z.min (11 + idx) (n - 5).
Definition stop_long (n s idx : Z) : Z :=
  if idx =? 15 then n else Z.min n (Z.max (s + ((n - (s + 1)) * (idx + 2)) / 16) (s + 1)).

Definition u8 (x : Z) : Z := x mod 256.

(** 2171-2280: igf_grid[0] and igf_grid[1]; [n], [long], [short] are the bands of the rate.
    igf_grid[2] and [3] are igf_grid[1] with their own igf_min. *)
Definition grids (n : Z) (long short : list Z) (fs start stop : Z) (hires : bool) : out (grid * grid * grid * grid) :=
  let sl := start_long n start in
  let el := stop_long n sl stop in
  olet a := tab long (sl - 1) in
  olet b := tab long (el - 1) in
  let ss := short_band (a / 8) short 0 in
  let es := short_band (b / 8) short 0 in
  olet m0 := igf_min 0 fs in
  olet m1 := igf_min 1 fs in
  olet m2 := igf_min 2 fs in
  olet m3 := igf_min 3 fs in
  olet t0 := tiles_of (u8 sl) (u8 el) (u8 m0) hires long in
  olet t1 := tiles_of (u8 ss) (u8 es) (u8 m1) hires short in
  let g m := mkGrid (u8 ss) (u8 es) (Z.of_nat (length t1)) (u8 m) in
  Got (mkGrid (u8 sl) (u8 el) (Z.of_nat (length t0)) (u8 m0), g m1, g m2, g m3).

(** The bands are those of the sampling rate, create.c:258-286. *)
Definition bands_of (rate : Z) : out (Z * list Z * list Z) :=
  match rate_index rate with
  | Done i =>
    match nth_error rate_tab (Z.to_nat i), nth_error long_tab (Z.to_nat i) with
    | Some (n, short), Some long => Got (n, long, short)
    | _, _ => Bad
    end
  | _ => Bad
  end.
Definition igf_init (rate start stop : Z) (hires : bool) : out (grid * grid * grid * grid) :=
  olet (n, long, short) := bands_of rate in
  grids n long short rate start stop hires.
