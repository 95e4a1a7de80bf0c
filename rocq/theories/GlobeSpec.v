(** Specification of longitudes and of regions on the globe, used by C35-C38.
    Only [region] (Spec.v) reads the fields of a Boundary. *)
From Coq Require Import Qabs.
From Verif Require Import Base Geo Spec.
Open Scope Q_scope.

(** Two longitudes name the same meridian. *)
Definition same_meridian (a b : Q) : Prop := exists k : Z, a == b + inject_Z k * 360.
Definition in_domain (a : Q) : Prop := -180 <= a <= 180.
(** [d] is the length of the shorter arc between two meridians. *)
Definition shorter_arc (a b d : Q) : Prop :=
  (exists c, same_meridian c (b - a) /\ d == Qabs c) /\
  forall c, same_meridian c (b - a) -> d <= Qabs c.

(** Closed and open membership of a point in a rectangle. *)
Definition within (r : box) (x y : Q) : Prop := x0 r <= x <= x1 r /\ y0 r <= y <= y1 r.
Definition strictly_within (r : box) (x y : Q) : Prop := x0 r < x < x1 r /\ y0 r < y < y1 r.
(** The same on the globe, where longitudes repeat every 360 degrees. *)
Definition within_globe (r : box) (x y : Q) : Prop := exists k : Z, within r (x + inject_Z k * 360) y.
Definition strictly_within_globe (r : box) (x y : Q) : Prop :=
  exists k : Z, strictly_within r (x + inject_Z k * 360) y.

(** A range that means something on the globe: both ends in the domain, and not
    the range from the antimeridian to itself written [180, -180]. *)
Definition meaningful (b : boundary) : Prop :=
  lat_min b <= lat_max b /\ in_domain (long_min b) /\ in_domain (long_max b) /\
  ~ (long_min b == 180 /\ long_max b == -180).

(** [l] are four parts of equal size that cover [b] and do not overlap. *)
Definition quartered (b : boundary) (l : list boundary) : Prop :=
  List.length l = 4%nat /\
  (forall q, In q l ->
     (x1 (region q) - x0 (region q)) * 2 == x1 (region b) - x0 (region b) /\
     (y1 (region q) - y0 (region q)) * 2 == y1 (region b) - y0 (region b) /\
     time_range q = time_range b) /\
  (forall x y, within_globe (region b) x y <-> exists q, In q l /\ within_globe (region q) x y) /\
  (forall i j p q x y, nth_error l i = Some p -> nth_error l j = Some q ->
     strictly_within_globe (region p) x y -> strictly_within_globe (region q) x y -> i = j).
