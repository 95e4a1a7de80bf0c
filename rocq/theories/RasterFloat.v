(** The number of samples [generate_samples] (environment_mesh.py 1225-1247)
    produces in double precision.  No proofs here. *)
From Coq Require Import Floats.SpecFloat Qround.
From Verif Require Import Base Floats.
Open Scope Z_scope.

(** numpy's length of [arange(start, stop, step)] *)
Definition float_arange_length (start stop step : f64) : res Z :=
  match fval (fdiv (fsub stop start) step) with
  | Some q => Ok (Z.max 0 (Qceiling q))
  | None => Err ZeroDivisionError
  end.
Record float_bounds := mkFB { f_lat_min : f64; f_lat_max : f64; f_long_min : f64; f_long_max : f64 }.
(** The two lengths, and whether [reshape] to (nlines * ncols, 2) accepts them. *)
Definition float_samples (b : float_bounds) (nlines ncols : Z) : res (Z * Z) :=
  let ph := fdiv (fsub (f_lat_max b) (f_lat_min b)) (fint ncols) in
  let pw := fdiv (fsub (f_long_max b) (f_long_min b)) (fint nlines) in
  lats <- float_arange_length (f_lat_max b) (f_lat_min b) (fmul (fint (-1)) ph) ;;
  longs <- float_arange_length (f_long_min b) (f_long_max b) pw ;;
  if lats * longs =? nlines * ncols then Ok (lats, longs) else Err ValueError.
