(** Specification of environment meshes: what it means for the neighbour graph of
    a loaded mesh to be exact, histories of refinements, and what merging is
    meant to do.  Only record fields of the model are read here. *)
From Verif Require Import Base Geo Graph Cell Builder Env Spec MeshSpec.
Open Scope Z_scope.

(** A cell of a regional mesh: a non-degenerate rectangle not crossing the
    antimeridian. *)
Definition plane_bounds (b : boundary) : Prop :=
  (long_min b < long_max b /\ lat_min b < lat_max b /\ -180 <= long_min b /\ long_max b <= 180)%Q /\
  times_ok (time_range b).

(** The graph lists exactly the contacts [R d] between the cells [cs]: its keys
    are the cells' ids as strings, every cell has exactly the eight directions
    (as strings), and the list under direction d holds, without duplicates, exactly the ids of the
    cells in contact in direction d. *)
Definition lists_contacts (R : compass -> box -> box -> Prop) (cs : list ecell) (g : graph) : Prop :=
  NoDup (dkeys g) /\
  (forall k, In k (dkeys g) <-> exists c, k = KS (e_id c) /\ In c cs) /\
  (forall c d, In c cs -> exists l,
     get_neighbours g (KS (e_id c)) (KS (code d)) = Ok l /\ NoDup l /\
     forall z, In z l <-> exists c', z = e_id c' /\ In c' cs /\
                            R d (region (e_bounds c)) (region (e_bounds c'))) /\
  (forall c m, In c cs -> dget_opt g (KS (e_id c)) = Some m ->
     NoDup (dkeys m) /\ forall k, In k (dkeys m) <-> exists d, k = KS (code d)).

Definition cells_apart (cs : list ecell) : Prop :=
  forall c c', In c cs -> In c' cs -> e_id c <> e_id c' ->
    apart (region (e_bounds c)) (region (e_bounds c')).

(** A regional mesh in good order: distinct ids, plane cells that do not
    overlap, and an exact graph. *)
Definition sound_mesh (m : emesh) : Prop :=
  NoDup (map e_id (em_cells m)) /\
  (forall c, In c (em_cells m) -> plane_bounds (e_bounds c)) /\
  cells_apart (em_cells m) /\
  lists_contacts touches (em_cells m) (em_graph m).

(** A history of successful splits (by id, in whatever form it is passed). *)
Inductive esplits : emesh -> emesh -> Prop :=
| esplits_none m : esplits m m
| esplits_more m m1 m2 k : esplits m m1 -> esplit_and_replace m1 k = Ok m2 -> esplits m m2.

(** The cells tile [whole]. *)
Definition env_tiles (whole : box) (cs : list ecell) : Prop :=
  (forall x y, mem whole x y -> exists c, In c cs /\ mem (region (e_bounds c)) x y) /\
  (forall c x y, In c cs -> mem (region (e_bounds c)) x y -> mem whole x y) /\
  (forall c c' x y, In c cs -> In c' cs -> mem (region (e_bounds c)) x y ->
     mem (region (e_bounds c')) x y -> e_id c = e_id c').

(** [k] is a quarter of [c]: same data apart from the entry "id". *)
Definition quarter_of (q : quad) (c k : ecell) : Prop :=
  quarter q (region (e_bounds c)) (region (e_bounds k)) /\
  time_range (e_bounds k) = time_range (e_bounds c) /\
  (forall n, n <> "id"%string -> sget (e_data k) n = sget (e_data c) n).

(** What splitting one cell [c] of the list [l1 ++ c :: l2] should produce. *)
Definition replaced (m : emesh) (c : ecell) (m' : emesh) : Prop :=
  exists l1 l2 sw nw se ne,
    em_cells m = l1 ++ c :: l2 /\ em_cells m' = l1 ++ l2 ++ [sw; nw; se; ne] /\
    quarter_of qSW c sw /\ quarter_of qNW c nw /\ quarter_of qSE c se /\ quarter_of qNE c ne /\
    (forall x k, In x (em_cells m) -> In k [sw; nw; se; ne] -> e_id x < e_id k).

(** ** Merging *)
(** [c] lies in the rectangle [b]. *)
Definition inside (b c : boundary) : Prop :=
  (long_min b <= long_min c /\ long_max c <= long_max b /\ lat_min b <= lat_min c /\ lat_max c <= lat_max b)%Q.
(** [c] lies in one cell of the grid of [w] by [h] cells through the south-west
    corner of [b]. *)
Definition on_grid (b : boundary) (w h : Q) (c : boundary) : Prop :=
  exists i j : Z,
    (long_min b + inject_Z i * w <= long_min c /\ long_max c <= long_min b + inject_Z (i + 1) * w /\
     lat_min b + inject_Z j * h <= lat_min c /\ lat_max c <= lat_min b + inject_Z (j + 1) * h)%Q.
(** [b] is made of whole cells of that grid. *)
Definition grid_aligned (b0 : boundary) (w h : Q) (b : boundary) : Prop :=
  exists i i' j j' : Z,
    (long_min b == long_min b0 + inject_Z i * w /\ long_max b == long_min b0 + inject_Z i' * w /\
     lat_min b == lat_min b0 + inject_Z j * h /\ lat_max b == lat_min b0 + inject_Z j' * h)%Q.

(** Meshes whose merge is meaningful: both in order, ids of the second not
    negative, its cells inside its bounds, and the cells of the first inside the
    cells of its configured grid. *)
Definition mergeable (m1 m2 : emesh) : Prop :=
  sound_mesh m1 /\ sound_mesh m2 /\
  (forall c, In c (em_cells m2) -> 0 <= e_id c) /\
  plane_bounds (em_bounds m2) /\
  (forall c, In c (em_cells m2) -> inside (em_bounds m2) (e_bounds c)) /\
  (0 < c_width (em_config m1) /\ 0 < c_height (em_config m1))%Q /\
  (forall c, In c (em_cells m1) ->
     on_grid (em_bounds m1) (c_width (em_config m1)) (c_height (em_config m1)) (e_bounds c)).

(** [x] is [c] with its id moved by [inc]; data apart from "id" unchanged. *)
Definition renumbered (inc : Z) (c x : ecell) : Prop :=
  e_bounds x = e_bounds c /\ e_id x = e_id c + inc /\
  (forall n, n <> "id"%string -> sget (e_data x) n = sget (e_data c) n).

(** ** JSON *)
(** Boundaries whose polygon determines them: of positive height, inside the
    longitude domain, and not crossing the antimeridian with an edge on it. *)
Definition drawable (b : boundary) : Prop :=
  (lat_min b < lat_max b /\ -180 <= long_min b /\ long_max b <= 180 /\
   (long_min b < long_max b \/ (long_max b <= long_min b /\ long_min b < 180 /\ -180 < long_max b)))%Q.
Definition without_times (b : boundary) : boundary :=
  mkB (lat_min b) (lat_max b) (long_min b) (long_max b) [].
(** Data whose names do not clash with the keys [to_json] writes itself. *)
Definition plain_data (d : sdict jval) : Prop :=
  NoDup (map fst d) /\
  forall n, In n (map fst d) -> ~ In n ["geometry"; "cx"; "cy"; "dcx"; "dcy"; "id"]%string.
(** Keys remain distinct when written as strings. *)
Definition distinct_as_strings {V} (d : dict V) : Prop := NoDup (map key_int (dkeys d)).
(** What a Boundary constructor accepts. *)
Definition accepted (b : boundary) : Prop :=
  (lat_min b <= lat_max b /\ -180 <= long_min b /\ long_max b <= 180)%Q /\ times_ok (time_range b).

(** The proportions of a base cell. *)
Definition proportioned (w h : Q) (b : boundary) : Prop :=
  ((long_max b - long_min b) * h == (lat_max b - lat_min b) * w)%Q.

(** [cs] are the live cells of the builder's mesh [m], read back from JSON. *)
Definition same_cells (m : mesh) (cs : list ecell) : Prop :=
  (forall c, In c cs -> exists i x, live_cell m i x /\ e_id c = Z.of_nat i /\ e_bounds c = without_times (cb_bounds x)) /\
  (forall i x, live_cell m i x -> exists c, In c cs /\ e_id c = Z.of_nat i /\ e_bounds c = without_times (cb_bounds x)).

(** ** Points *)
Definition interior (b : box) (x y : Q) : Prop := (x0 b < x < x1 b /\ y0 b < y < y1 b)%Q.
(** The same on the globe. *)
Definition interior_mod (b : box) (x y : Q) : Prop := exists k : Z, interior b (x + inject_Z k * 360)%Q y.
Definition cells_apart_mod (cs : list ecell) : Prop :=
  forall c c' x y, In c cs -> In c' cs -> interior_mod (region (e_bounds c)) x y ->
    interior_mod (region (e_bounds c')) x y -> e_id c = e_id c'.

(** The point lies on none of the lines that halving [b] again and again would
    draw. *)
Definition off_lines (b : box) (x y : Q) : Prop :=
  forall (i : Z) (k : nat),
    ~ ((x - x0 b) * inject_Z (2 ^ Z.of_nat k) == inject_Z i * (x1 b - x0 b))%Q /\
    ~ ((y - y0 b) * inject_Z (2 ^ Z.of_nat k) == inject_Z i * (y1 b - y0 b))%Q.
Definition generic (cs : list ecell) (x y : Q) : Prop :=
  forall c, In c cs -> interior (region (e_bounds c)) x y -> off_lines (region (e_bounds c)) x y.

(** Whether the cell is as small as the configuration asks for: [either] side, or
    both. *)
Definition narrow (cfg : config) (b : boundary) : Prop :=
  (long_max b - long_min b <= c_width cfg / 2 ^ c_depth cfg)%Q.
Definition low (cfg : config) (b : boundary) : Prop :=
  (lat_max b - lat_min b <= c_height cfg / 2 ^ c_depth cfg)%Q.

(** ** Histories of operations on a loaded mesh *)
(** A mesh that may be merged into [m]: in order, tiling its bounds, which lie in
    those of [m], by cells that lie in cells of [m]'s grid. *)
Definition fits (m other : emesh) : Prop :=
  sound_mesh other /\ (forall c, In c (em_cells other) -> 0 <= e_id c) /\
  plane_bounds (em_bounds other) /\ inside (em_bounds m) (em_bounds other) /\
  env_tiles (region (em_bounds other)) (em_cells other) /\
  (forall c, In c (em_cells other) ->
     on_grid (em_bounds m) (c_width (em_config m)) (c_height (em_config m)) (e_bounds c)).

Inductive env_history : emesh -> emesh -> Prop :=
| hist_none m : env_history m m
| hist_split m m1 m2 k : env_history m m1 -> esplit_and_replace m1 k = Ok m2 -> env_history m m2
| hist_points m m1 m2 fuel ps : env_history m m1 -> split_points fuel m1 ps = Ok m2 -> env_history m m2
| hist_update m m1 m2 i values : env_history m m1 -> update_cellbox m1 i values = Ok m2 -> env_history m m2
| hist_merge m m1 m2 other other' : env_history m m1 -> fits m1 other ->
    merge_mesh m1 other = Ok (m2, other') -> env_history m m2.

(** A regional mesh in order that tiles its bounds by cells lying in cells of its
    grid. *)
Definition well_kept (m : emesh) : Prop :=
  sound_mesh m /\ plane_bounds (em_bounds m) /\ env_tiles (region (em_bounds m)) (em_cells m) /\
  (0 < c_width (em_config m) /\ 0 < c_height (em_config m))%Q /\
  (forall c, In c (em_cells m) ->
     on_grid (em_bounds m) (c_width (em_config m)) (c_height (em_config m)) (e_bounds c)).
