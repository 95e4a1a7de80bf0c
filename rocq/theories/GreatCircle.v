(** Model of Boundary.calc_size (boundary.py 320-338), over the real numbers.  No proofs
    here.  (The floating-point functions of math.py are idealised.) *)
From Coq Require Import Reals Qreals.
From Verif Require Import Base Geo.
Open Scope R_scope.

Definition radians (x : R) : R := x * PI / 180.
Definition calc_size (b : boundary) : R :=
  let lon1 := radians (Q2R (long_min b)) in
  let lat1 := radians (Q2R (lat_min b)) in
  let lon2 := radians (Q2R (long_max b)) in
  let lat2 := radians (Q2R (lat_max b)) in
  let dlon := lon2 - lon1 in
  let dlat := lat2 - lat1 in
  let a := (sin (dlat / 2)) ^ 2 + cos lat1 * cos lat2 * (sin (dlon / 2)) ^ 2 in
  let c := 2 * asin (sqrt a) in
  let m := 6371 * c * 1000 in
  m / sqrt 2.
