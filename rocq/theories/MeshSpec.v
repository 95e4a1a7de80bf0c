(** Specification of meshes: what it means for a mesh's neighbour graph to be
    exact, for its cells to tile a region, and what a history of splits is. *)
From Verif Require Import Base Geo Graph Cell Builder Spec.
Open Scope Z_scope.

(** Cell [c] is at position [i] of the mesh's cell list and has not been split. *)
Definition live_cell (m : mesh) (i : nat) (c : cellbox) : Prop :=
  nth_error (cells m) i = Some (Some c).

(** A history of successful [split_and_replace] calls. *)
Inductive splits : mesh -> mesh -> Prop :=
| splits_none m : splits m m
| splits_more m m1 m2 i : splits m m1 -> split_and_replace m1 i = Ok m2 -> splits m m2.

(** The graph lists exactly the contacts [R d] between live cells: its keys are
    the positions of the live cells, every live cell has all eight directions,
    and the list under direction d holds, without duplicates, exactly the
    positions of the live cells in contact in direction d. *)
Definition graph_exact (R : compass -> box -> box -> Prop) (m : mesh) : Prop :=
  NoDup (dkeys (ng m)) /\
  (forall k, In k (dkeys (ng m)) <-> exists i c, k = KI (Z.of_nat i) /\ live_cell m i c) /\
  (forall i c d, live_cell m i c -> exists l,
     get_neighbours (ng m) (KI (Z.of_nat i)) (KI (code d)) = Ok l /\ NoDup l /\
     forall z, In z l <-> exists j c', z = Z.of_nat j /\ live_cell m j c' /\
                            R d (region (cb_bounds c)) (region (cb_bounds c'))).

(** Ids equal list positions (also for use as "never reused": positions of the
    cell list are only ever appended to). *)
Definition ids_are_positions (m : mesh) : Prop :=
  forall i c, live_cell m i c -> cb_id c = Z.of_nat i.

(** The live cells tile [whole]. *)
Definition mesh_tiles (whole : box) (m : mesh) : Prop :=
  (forall x y, mem whole x y -> exists i c, live_cell m i c /\ mem (region (cb_bounds c)) x y) /\
  (forall i c x y, live_cell m i c -> mem (region (cb_bounds c)) x y -> mem whole x y) /\
  (forall i j c c' x y, live_cell m i c -> live_cell m j c' ->
     mem (region (cb_bounds c)) x y -> mem (region (cb_bounds c')) x y -> i = j).

(** Total area of the live cells. *)
Definition live_area (m : mesh) : Q :=
  fold_right (fun o acc => match o with Some c => area (region (cb_bounds c)) + acc | None => acc end)%Q
             0%Q (cells m).

(** What the Boundary constructor guarantees for a time range. *)
Definition times_ok (t : list Z) : Prop := t = [] \/ exists a b, t = [a; b] /\ a <= b.

(** A valid region that does not cross the antimeridian. *)
Definition valid_region (b : boundary) : Prop :=
  (long_min b < long_max b /\ lat_min b <= lat_max b /\ -180 <= long_min b /\ long_max b <= 180)%Q /\
  times_ok (time_range b).
Definition spans_globe (b : boundary) : Prop := (long_min b == -180 /\ long_max b == 180)%Q.

(** An extent is a whole number of steps. *)
Definition divides (step extent : Q) : Prop := exists n : Z, (extent == inject_Z n * step)%Q.

(** The inputs for which the mesh is meant to work: a region that does not cross
    the antimeridian, positive cell size, and for the whole globe at least three
    whole columns.  (That the extents are multiples of the cell size is checked
    by the builder for regional meshes.) *)
Definition admissible (b : boundary) (cw ch : Q) : Prop :=
  valid_region b /\ (0 < cw)%Q /\ (0 < ch)%Q /\
  (spans_globe b -> divides cw 360 /\ (3 * cw <= 360)%Q).

(** Meshes a user can obtain: built, then split any number of times. *)
Definition reachable (b : boundary) (cw ch : Q) (srcs : list metadata) (m : mesh) : Prop :=
  exists m0, build_mesh b cw ch srcs = Ok m0 /\ splits m0 m.

(** A cell of a global mesh: inside [-180,180] and narrower than 180 degrees. *)
Definition globe_cell (a : boundary) : Prop :=
  (long_min a < long_max a /\ lat_min a < lat_max a /\ -180 <= long_min a /\ long_max a <= 180 /\
   long_max a - long_min a < 180)%Q.

(** A history of splits in which every split cell satisfies [P] at the time it
    is split. *)
Inductive splits_by (P : cellbox -> Prop) : mesh -> mesh -> Prop :=
| by_none m : splits_by P m m
| by_more m m1 m2 i c : splits_by P m m1 -> live_cell m1 i c -> P c ->
    split_and_replace m1 i = Ok m2 -> splits_by P m m2.

(** The answers a cell's first [n] data sources give to their conditions. *)
Definition answers (c : cellbox) (n : nat) (h : hom) : Prop :=
  exists s cd, In s (firstn n (cb_sources c)) /\ In cd (m_conds s) /\
    h = l_hom (m_loader s) (cb_bounds c) cd (m_subset s).
(** The documented decision: some answer is HET and none is HOM or MIN. *)
Definition wants_split (c : cellbox) (n : nat) : Prop :=
  answers c n HET /\ ~ answers c n HOM /\ ~ answers c n MIN.
