(** Specification of raster images. *)
From Verif Require Import Base Geo Graph Cell Builder Env Raster.
Open Scope Z_scope.

(** The centre of pixel (r, c) of an image of [nlines] lines and [ncols] columns
    that covers the region, line 0 in the north. *)
Definition centre_lat (b : boundary) (nlines r : Z) : Q :=
  (lat_max b - (inject_Z r + (1#2)) * ((lat_max b - lat_min b) / inject_Z nlines))%Q.
Definition centre_long (b : boundary) (ncols c : Z) : Q :=
  (long_min b + (inject_Z c + (1#2)) * ((long_max b - long_min b) / inject_Z ncols))%Q.
(** GDAL's meaning of a geo-transform: the position of the centre of pixel (r, c). *)
Definition georeferenced (gt : list Q) (r c : Z) : Q * Q :=
  let g i := nth i gt 0%Q in
  (g 0%nat + (inject_Z c + (1#2)) * g 1%nat + (inject_Z r + (1#2)) * g 2%nat,
   g 3%nat + (inject_Z c + (1#2)) * g 4%nat + (inject_Z r + (1#2)) * g 5%nat)%Q.
(** The entry of an array at a row and a column. *)
Definition at_pixel {A} (rows : list (list A)) (r c : Z) : option A :=
  match nth_error rows (Z.to_nat r) with Some row => nth_error row (Z.to_nat c) | None => None end.
Definition is_pixel (nlines ncols r c : Z) : Prop := 0 <= r < nlines /\ 0 <= c < ncols.
