(** * Cicp: loudspeaker layout tables

    decoder/impeghd_cicp_2_geometry_rom.c (default build). *)

From Coq Require Import ZArith List Lia Bool.
Import ListNotations.
Open Scope Z_scope.

(** impgehd_cicp_get_num_ls, geometry_rom.c:107-108. *)
Definition num_ls_tbl : list Z :=
  [0; 1; 2; 3; 4; 5; 6; 8; 0; 3; 4; 7; 8; 24; 8; 12; 10; 12; 14; 12; 14].
Definition num_ls (i : Z) : Z := nth (Z.to_nat i) num_ls_tbl 0.

(** ia_cicp_ls_geo_tbls, geometry_rom.c:110-156: azimuth, elevation, LFE flag. *)
Definition ls_geo_tbl : list (Z * Z * Z) :=
  [(30, 0, 0); (-30, 0, 0); (0, 0, 0); (0, 0, 1); (110, 0, 0); (-110, 0, 0); (22, 0, 0);
   (-22, 0, 0); (135, 0, 0); (-135, 0, 0); (180, 0, 0); (0, 0, 0); (0, 0, 0); (90, 0, 0);
   (-90, 0, 0); (60, 0, 0); (-60, 0, 0); (30, 35, 0); (-30, 35, 0); (0, 35, 0);
   (135, 35, 0); (-135, 35, 0); (180, 35, 0); (90, 35, 0); (-90, 35, 0); (0, 90, 0);
   (45, -15, 1); (45, -15, 0); (-45, -15, 0); (0, -15, 0); (110, 35, 0); (-110, 35, 0);
   (45, 35, 0); (-45, 35, 0); (45, 0, 0); (-45, 0, 0); (-45, -15, 1); (60, 0, 0);
   (-60, 0, 0); (30, 0, 0); (-30, 0, 0); (150, 0, 0); (-150, 0, 0)].
Definition ls_geo (i : Z) : Z * Z * Z := nth (Z.to_nat i) ls_geo_tbl (0, 0, 0).

(** ia_cicp_idx_ls_set_map_tbl, geometry_rom.c:158-217; the two NULL entries (0 and 8) are
    the empty list, they have no loudspeakers to visit.  Channel names are the indices of
    impeghd_cicp_defines.h:46-88. *)
Definition ls_set_tbl : list (list Z) :=
  [ []; [2]; [0; 1]; [0; 1; 2]; [0; 1; 2; 10]; [0; 1; 2; 4; 5]; [0; 1; 2; 3; 4; 5];
    [0; 1; 2; 3; 4; 5; 15; 16]; []; [0; 1; 10]; [0; 1; 4; 5]; [0; 1; 2; 3; 4; 5; 10];
    [0; 1; 2; 3; 4; 5; 8; 9];
    [15; 16; 2; 26; 8; 9; 0; 1; 10; 36; 13; 14; 32; 33; 19; 25; 20; 21; 23; 24; 22; 29; 27; 28];
    [0; 1; 2; 3; 4; 5; 17; 18]; [0; 1; 2; 26; 8; 9; 36; 13; 14; 32; 33; 22];
    [0; 1; 2; 3; 4; 5; 17; 18; 30; 31]; [0; 1; 2; 3; 4; 5; 17; 18; 19; 30; 31; 25];
    [0; 1; 2; 3; 4; 5; 41; 42; 17; 18; 19; 30; 31; 25];
    [0; 1; 2; 3; 8; 9; 13; 14; 17; 18; 20; 21];
    [0; 1; 2; 3; 8; 9; 13; 14; 32; 33; 20; 21; 37; 38] ].
Definition ls_set (i : Z) : list Z := nth (Z.to_nat i) ls_set_tbl [].

(** The loudspeakers (azimuth, elevation, LFE flag) of a layout, in channel order. *)
Definition layout_spk (i : Z) : list (Z * Z * Z) := map ls_geo (ls_set i).
