(** Specification of meshes on the globe, for regions that cross the antimeridian
    (C39, C47). *)
From Verif Require Import Base Geo Graph Cell Builder Spec MeshSpec GlobeSpec.
Open Scope Q_scope.

(** Half-open membership on the globe. *)
Definition mem_globe (r : box) (x y : Q) : Prop := exists k : Z, mem r (x + inject_Z k * 360) y.

(** The live cells tile [whole] on the globe. *)
Definition globe_tiled (whole : box) (m : mesh) : Prop :=
  (forall x y, mem_globe whole x y -> exists i c, live_cell m i c /\ mem_globe (region (cb_bounds c)) x y) /\
  (forall i c x y, live_cell m i c -> mem_globe (region (cb_bounds c)) x y -> mem_globe whole x y) /\
  (forall i j c c' x y, live_cell m i c -> live_cell m j c' ->
     mem_globe (region (cb_bounds c)) x y -> mem_globe (region (cb_bounds c')) x y -> i = j).

(** A region that continues past the antimeridian without closing the circle. *)
Definition crossing (b : boundary) : Prop :=
  lat_min b <= lat_max b /\ in_domain (long_min b) /\ in_domain (long_max b) /\
  long_max b < long_min b /\ ~ (long_min b == 180 /\ long_max b == -180) /\ times_ok (time_range b).

Definition side (d : compass) : Prop := d = dN \/ d = dE \/ d = dS \/ d = dW.
(** The quarters of [c] touch the neighbours along the sides of [c] as plain
    rectangles of the map from -180 to 180 and beyond, without moving either by
    360 degrees. *)
Definition quarters_touch_plainly (m : mesh) (c : cellbox) : Prop :=
  forall ks k j c' d d', split_bounds (cb_bounds c) = Ok ks -> In k ks -> live_cell m j c' ->
    side d -> touches_mod d (region (cb_bounds c)) (region (cb_bounds c')) ->
    touches_mod d' (region k) (region (cb_bounds c')) ->
    touches d' (region k) (region (cb_bounds c')).
(** The cell and its neighbours along the sides end at or before 180. *)
Definition west_of_antimeridian (m : mesh) (c : cellbox) : Prop :=
  x1 (region (cb_bounds c)) <= 180 /\
  forall j c' d, live_cell m j c' -> side d -> touches_mod d (region (cb_bounds c)) (region (cb_bounds c')) ->
    x1 (region (cb_bounds c')) <= 180.

(** Histories of splits of cells satisfying [P] in the mesh they are split in. *)
Inductive splits_where (P : mesh -> cellbox -> Prop) : mesh -> mesh -> Prop :=
| where_none m : splits_where P m m
| where_more m m1 m2 i c : splits_where P m m1 -> live_cell m1 i c -> P m1 c ->
    split_and_replace m1 i = Ok m2 -> splits_where P m m2.

(** The graph has exactly the live cells as nodes, and whatever it lists are live
    cells touching in that direction that list the cell in turn. *)
Definition only_contacts (R : compass -> box -> box -> Prop) (m : mesh) : Prop :=
  NoDup (dkeys (ng m)) /\
  (forall k, In k (dkeys (ng m)) <-> exists i c, k = KI (Z.of_nat i) /\ live_cell m i c) /\
  (forall i c d, live_cell m i c -> exists l,
     get_neighbours (ng m) (KI (Z.of_nat i)) (KI (code d)) = Ok l /\ NoDup l /\
     forall z, In z l -> exists j c' l', z = Z.of_nat j /\ live_cell m j c' /\
       R d (region (cb_bounds c)) (region (cb_bounds c')) /\
       get_neighbours (ng m) (KI z) (KI (code (opposite d))) = Ok l' /\ In (Z.of_nat i) l').
