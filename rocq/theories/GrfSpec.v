(** Specification of random fields (C71). *)
From Coq Require Import Permutation.
From Verif Require Import Base Geo Cell Loaders Shapes ShapeSpec.
Open Scope Q_scope.

Definition uneven (l : list Q) : Prop := exists x y, In x l /\ In y l /\ x < y.
(** [g] is [l] stretched or shrunk and moved so as to range from [lo] to [hi]. *)
Definition rescaled (lo hi : Q) (l g : list Q) : Prop :=
  exists a c, 0 < a /\ Forall2 (fun x y => y == lo + (hi - lo) * (a * (x - c))) l g /\
    (forall x, In x l -> 0 <= a * (x - c) <= 1) /\ (exists x, In x l /\ a * (x - c) == 0) /\ (exists x, In x l /\ a * (x - c) == 1).
(** Limited to an interval. *)
Definition limited (t0 t1 x y : Q) : Prop := (x <= t0 -> y == t0) /\ (t1 <= x -> y == t1) /\ (t0 <= x <= t1 -> y == x).
(** The imported data: the given values at the points of a square grid over the region. *)
Definition on_grid (size : Z) (b : boundary) (vals : list (list (option Q))) (r : res xrds) : Prop :=
  exists ds lats longs rows, r = Ok ds /\ axis_over (lat_min b) (lat_max b) size lats /\ axis_over (long_min b) (long_max b) size longs /\
    rows_of_grid lats longs rows /\ map p_vals rows = vals /\ Permutation (xr_points ds) rows.
(** The Fourier coordinate of index i: congruent to i, and of least magnitude. *)
Definition fourier (size i k : Z) : Prop := (k mod size = i mod size /\ - size <= 2 * k < size)%Z.
