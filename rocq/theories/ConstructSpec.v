(** When a source's data meet the region (C62). *)
From Verif Require Import Base Geo Graph Cell Loaders Builder Spec MeshSpec DataSpec.
Open Scope Q_scope.

(** Points whose values are all known, or of which some value is known. *)
Definition all_known (p : point) : Prop := ~ In None (p_vals p).
Definition some_known (p : point) : Prop := exists q, In (Some q) (p_vals p).

(** A number strictly between the coordinates of two of the points. *)
Definition between (P : point -> Prop) (f : point -> Q) (d : data) (x : Q) : Prop :=
  exists p q, In p d /\ In q d /\ P p /\ P q /\ f p < x < f q.
(** The known points reach over a part of the region that has an area. *)
Definition reaches (P : point -> Prop) (b : boundary) (d : data) : Prop :=
  (exists y, between P p_lat d y /\ lat_min b < y < lat_max b) /\
  ((exists x, between P p_long d x /\ long_min b < x < long_max b) \/
   (forall p q, In p d -> In q d -> P p -> P q -> p_long p == p_long q)).

(** A region that has an area and does not cross the antimeridian. *)
Definition plain_region (b : boundary) : Prop :=
  -180 <= long_min b /\ long_min b < long_max b /\ long_max b <= 180 /\ lat_min b < lat_max b /\ times_ok (time_range b).
Definition longs_in_range (P : point -> Prop) (d : data) : Prop :=
  forall p, In p d -> P p -> -180 <= p_long p <= 180.

(** A part of a region, on the same days. *)
Definition part_of (c b : boundary) : Prop :=
  long_min c < long_max c /\ lat_min b <= lat_min c /\ lat_max c <= lat_max b /\ time_range c = time_range b /\
  if qltb (long_min b) (long_max b) then long_min b <= long_min c /\ long_max c <= long_max b
  else long_min b <= long_min c \/ long_max c <= long_max b.

(** A dataset with increasing axes, as every trimmed selection needs. *)
Definition ordered (ds : xrds) : Prop :=
  increasing (x_lat ds) /\ increasing (x_long ds) /\ forall ts, x_time ds = Some ts -> increasing_z ts.
