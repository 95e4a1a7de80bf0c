(** Specification of distances on the globe (C81): the angle between two directions. *)
From Coq Require Import Reals Qreals.
From Verif Require Import Base Geo.
Open Scope R_scope.

(** The direction of a place, as a unit vector. *)
Definition direction_of (lat long : R) : R * R * R :=
  let p := lat * PI / 180 in let l := long * PI / 180 in (cos p * cos l, cos p * sin l, sin p).
Definition dot (u v : R * R * R) : R :=
  match u, v with (a, b, c), (x, y, z) => a * x + b * y + c * z end.
(** The length, in metres, of the shortest way between two places on a globe with a radius
    of 6371 km. *)
Definition great_circle (lat1 long1 lat2 long2 d : R) : Prop :=
  exists t, 0 <= t <= PI /\ cos t = dot (direction_of lat1 long1) (direction_of lat2 long2) /\ d = 6371000 * t.
