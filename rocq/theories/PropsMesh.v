(** Property theorems C01-C11 and C50: geometry of neighbours, the initial grid,
    splitting.  Statements only; every proof is a lemma of another file. *)
From Verif Require Import Base Geo Graph Cell Builder Spec MeshSpec CaseProofs SplitGeo Invariant Consequences Reach MeshFacts Examples.
Open Scope Z_scope.

(** C01.  For two non-degenerate cells that do not cross the antimeridian the
    answer is d exactly when they touch in direction d, 0 exactly when in none. *)
Theorem C01_case_is_contact : forall a b : boundary,
  (long_min a < long_max a /\ lat_min a < lat_max a)%Q ->
  (long_min b < long_max b /\ lat_min b < lat_max b)%Q ->
  get_neighbour_case false a b = get_neighbour_case_bounds a b /\
  (forall d, get_neighbour_case_bounds a b = code d <-> touches d (region a) (region b)) /\
  (get_neighbour_case_bounds a b = 0 <-> forall d, ~ touches d (region a) (region b)).
Proof. exact case_is_contact. Qed.
Print Assumptions C01_case_is_contact.
Example C01_case : touches dNE (region (mkB 0 1 0 1 [])) (region (mkB 1 3 1 2 [])) /\
  touches dE (region (mkB 0 2 0 1 [])) (region (mkB 1 3 1 2 [])) /\
  get_neighbour_case_bounds (mkB 0 2 0 1 []) (mkB 1 3 1 2 []) = 2.
Proof. repeat split; try reflexivity. exists (3#2). cbn. lra. Qed.

(** C02.  Antisymmetry and uniqueness, in the plane and on the globe. *)
Theorem C02_case_antisymmetric : forall a b : boundary,
  (long_min a < long_max a /\ lat_min a < lat_max a)%Q ->
  (long_min b < long_max b /\ lat_min b < lat_max b)%Q ->
  get_neighbour_case false b a = - get_neighbour_case false a b /\
  (forall d d', touches d (region a) (region b) -> touches d' (region a) (region b) -> d = d').
Proof. exact case_antisymmetric. Qed.
Print Assumptions C02_case_antisymmetric.
Theorem C02_global_case_antisymmetric : forall a b : boundary,
  globe_cell a -> globe_cell b ->
  get_neighbour_case true b a = - get_neighbour_case true a b /\
  (forall d d', touches_mod d (region a) (region b) -> touches_mod d' (region a) (region b) -> d = d').
Proof. exact global_case_antisymmetric. Qed.
Print Assumptions C02_global_case_antisymmetric.
Example C02_case : globe_cell (mkB 0 2 (-180) (-90) []) /\ globe_cell (mkB 1 3 100 180 []) /\
  get_neighbour_case true (mkB 0 2 (-180) (-90) []) (mkB 1 3 100 180 []) = -2 /\
  get_neighbour_case true (mkB 1 3 100 180 []) (mkB 0 2 (-180) (-90) []) = 2.
Proof. unfold globe_cell. cbn. repeat split; try lra; reflexivity. Qed.
(** The width restriction is needed: a two-column globe. *)
Theorem C02_two_columns_refuted : exists a b : boundary,
  (long_min a == -180 /\ long_max a == 0 /\ long_min b == 0 /\ long_max b == 180)%Q /\
  get_neighbour_case true b a <> - get_neighbour_case true a b.
Proof. exact two_columns_not_antisymmetric. Qed.
Print Assumptions C02_two_columns_refuted.

(** C03.  On a global mesh the answer is contact modulo 360 degrees. *)
Theorem C03_global_case_is_contact : forall a b : boundary,
  globe_cell a -> globe_cell b ->
  (forall d, get_neighbour_case true a b = code d <-> touches_mod d (region a) (region b)) /\
  (get_neighbour_case true a b = 0 <-> forall d, ~ touches_mod d (region a) (region b)).
Proof. exact global_case_is_contact. Qed.
Print Assumptions C03_global_case_is_contact.
Example C03_case : get_neighbour_case true (mkB 0 2 (-180) (-90) []) (mkB 2 3 90 180 []) = code dNW.
Proof. reflexivity. Qed.

(** C04.  The initial cells: R*C cells of the requested size in rows from the
    south-west, id = position, data trimmed to the cell, tiling the region. *)
Theorem C04_initial_cells : forall b cw ch srcs m,
  admissible b cw ch -> build_mesh b cw ch srcs = Ok m ->
  mesh_tiles (region b) m /\
  exists R C : nat,
    (inject_Z (Z.of_nat C) * cw == long_max b - long_min b)%Q /\
    (inject_Z (Z.of_nat R) * ch == lat_max b - lat_min b)%Q /\
    List.length (cells m) = (R * C)%nat /\
    (forall r c, (r < R)%nat -> (c < C)%nat -> exists x, live_cell m (r * C + c) x /\
       cb_id x = Z.of_nat (r * C + c) /\ cb_depth x = 0 /\ cb_parent x = None /\
       time_range (cb_bounds x) = time_range b /\
       cb_sources x = map (fun s => mkMeta (m_loader s) (m_conds s) (m_fill s)
                                    (l_trim (m_loader s) (cb_bounds x) (m_subset s))) srcs /\
       (let g := region (cb_bounds x) in
        x0 g == long_min b + inject_Z (Z.of_nat c) * cw /\ x1 g == x0 g + cw /\
        y0 g == lat_min b + inject_Z (Z.of_nat r) * ch /\ y1 g == y0 g + ch)%Q).
Proof. exact initial_cells. Qed.
Print Assumptions C04_initial_cells.
(** ... and every such region and cell size is accepted. *)
Theorem C04_divisible_accepted : forall b cw ch srcs,
  admissible b cw ch -> divides cw (long_max b - long_min b) -> divides ch (lat_max b - lat_min b) ->
  exists m, build_mesh b cw ch srcs = Ok m.
Proof. exact build_total. Qed.
Print Assumptions C04_divisible_accepted.
Example C04_case : admissible ex_region 1 1 /\ build_mesh ex_region 1 1 [] = Ok ex_m0 /\ List.length (cells ex_m0) = 6%nat.
Proof. exact (conj ex_admissible (conj ex_built eq_refl)). Qed.

(** C05.  The neighbour graph of a new regional mesh is exactly adjacency. *)
Theorem C05_initial_graph_exact : forall b cw ch srcs m,
  admissible b cw ch -> ~ spans_globe b -> build_mesh b cw ch srcs = Ok m ->
  graph_exact touches m.
Proof. exact initial_graph_exact. Qed.
Print Assumptions C05_initial_graph_exact.
Example C05_case : admissible ex_region 1 1 /\ ~ spans_globe ex_region /\ build_mesh ex_region 1 1 [] = Ok ex_m0 /\
  get_neighbours (ng ex_m0) (KI 0) (KI north_east) = Ok [4].
Proof. exact (conj ex_admissible (conj ex_regional (conj ex_built eq_refl))). Qed.

(** C06.  The neighbour graph of a new global mesh is adjacency on the cylinder. *)
Theorem C06_initial_global_graph_exact : forall b cw ch srcs m,
  admissible b cw ch -> spans_globe b -> build_mesh b cw ch srcs = Ok m ->
  graph_exact touches_mod m.
Proof. exact initial_global_graph_exact. Qed.
Print Assumptions C06_initial_global_graph_exact.
Example C06_case : admissible gx_region 90 90 /\ spans_globe gx_region /\ build_mesh gx_region 90 90 [] = Ok gx_m0 /\
  get_neighbours (ng gx_m0) (KI 0) (KI north_west) = Ok [7].
Proof. exact (conj gx_admissible (conj gx_global (conj gx_built eq_refl))). Qed.

(** C07.  After any history of splits of a regional mesh the graph is exactly
    the adjacency of the live cells. *)
Theorem C07_split_graph_exact : forall b cw ch srcs m,
  admissible b cw ch -> ~ spans_globe b -> reachable b cw ch srcs m ->
  graph_exact touches m.
Proof. exact reachable_exact_regional. Qed.
Print Assumptions C07_split_graph_exact.
Example C07_case : admissible ex_region 1 1 /\ ~ spans_globe ex_region /\ reachable ex_region 1 1 [] ex_m3 /\
  get_neighbours (ng ex_m3) (KI 5) (KI west) = Ok [9; 11; 13] .
Proof. exact (conj ex_admissible (conj ex_regional (conj ex_reachable eq_refl))). Qed.

(** C08.  The same for a global mesh, modulo 360 degrees. *)
Theorem C08_split_global_graph_exact : forall b cw ch srcs m,
  admissible b cw ch -> spans_globe b -> reachable b cw ch srcs m ->
  graph_exact touches_mod m.
Proof. exact reachable_exact_global. Qed.
Print Assumptions C08_split_global_graph_exact.
Example C08_case : admissible gx_region 90 90 /\ spans_globe gx_region /\ reachable gx_region 90 90 [] gx_m2 /\
  get_neighbours (ng gx_m2) (KI 8) (KI north_west) = Ok [15].
Proof. exact (conj gx_admissible (conj gx_global (conj gx_reachable eq_refl))). Qed.

(** C09.  Splitting a live cell never raises; graph keys are the ids of live
    cells, listed ids are live, nobody is its own neighbour, ids are positions
    and a position, once used, is only ever emptied. *)
Theorem C09_split_never_raises : forall b cw ch srcs m i c,
  admissible b cw ch -> reachable b cw ch srcs m -> live_cell m i c ->
  exists m', split_and_replace m i = Ok m'.
Proof. exact split_never_raises. Qed.
Print Assumptions C09_split_never_raises.
Theorem C09_no_dangling : forall b cw ch srcs m,
  admissible b cw ch -> reachable b cw ch srcs m ->
  ids_are_positions m /\
  (forall k, In k (dkeys (ng m)) <-> exists i c, live_cell m i c /\ k = KI (cb_id c)) /\
  (forall i c d l, live_cell m i c -> get_neighbours (ng m) (KI (cb_id c)) (KI (code d)) = Ok l ->
     ~ In (cb_id c) l /\ forall z, In z l -> exists j c', live_cell m j c' /\ cb_id c' = z).
Proof. exact no_dangling. Qed.
Print Assumptions C09_no_dangling.
Theorem C09_ids_never_reused : forall b cw ch srcs m m',
  admissible b cw ch -> reachable b cw ch srcs m -> splits m m' ->
  (List.length (cells m) <= List.length (cells m'))%nat /\
  forall j, (j < List.length (cells m))%nat ->
    nth_error (cells m') j = nth_error (cells m) j \/ nth_error (cells m') j = Some None.
Proof. exact ids_never_reused. Qed.
Print Assumptions C09_ids_never_reused.
Example C09_case : reachable ex_region 1 1 [] ex_m3 /\ (exists c, live_cell ex_m3 5 c) /\
  nth_error (cells ex_m3) 7 = Some None /\ splits ex_m0 ex_m3.
Proof. split; [exact ex_reachable|]. split; [eexists; reflexivity|]. split; [reflexivity | exact ex_splits]. Qed.

(** C10.  A split replaces the cell by its four quarters (NW, NE, SW, SE, in this
    order at the end of the list); the live cells always tile the region and
    keep its area. *)
Theorem C10_split_quarters : forall b cw ch srcs m i m',
  admissible b cw ch -> reachable b cw ch srcs m -> split_and_replace m i = Ok m' ->
  exists c nw ne sw se,
    live_cell m i c /\
    cells m' = list_set (cells m ++ [Some nw; Some ne; Some sw; Some se]) i None /\
    quarter qNW (region (cb_bounds c)) (region (cb_bounds nw)) /\
    quarter qNE (region (cb_bounds c)) (region (cb_bounds ne)) /\
    quarter qSW (region (cb_bounds c)) (region (cb_bounds sw)) /\
    quarter qSE (region (cb_bounds c)) (region (cb_bounds se)) /\
    (forall k, In k [nw; ne; sw; se] ->
       cb_depth k = cb_depth c + 1 /\ cb_parent k = Some c /\
       time_range (cb_bounds k) = time_range (cb_bounds c)) /\
    (forall x y, mem (region (cb_bounds c)) x y <->
       mem (region (cb_bounds nw)) x y \/ mem (region (cb_bounds ne)) x y \/
       mem (region (cb_bounds sw)) x y \/ mem (region (cb_bounds se)) x y).
Proof. exact split_quarters. Qed.
Print Assumptions C10_split_quarters.
Theorem C10_live_cells_tile : forall b cw ch srcs m,
  admissible b cw ch -> reachable b cw ch srcs m ->
  mesh_tiles (region b) m /\ (live_area m == area (region b))%Q.
Proof. exact reachable_tiles. Qed.
Print Assumptions C10_live_cells_tile.
Example C10_case : reachable ex_region 1 1 [] ex_m2 /\ split_and_replace ex_m2 1 = Ok ex_m3 /\ (live_area ex_m3 == 6)%Q.
Proof.
  split; [exists ex_m0; split; [exact ex_built|]|split; reflexivity].
  apply (splits_more _ ex_m1 _ 7); [|reflexivity]. apply (splits_more _ ex_m0 _ 4); [|reflexivity]. apply splits_none.
Qed.

(** C11.  The neighbour relation is symmetric at every moment. *)
Theorem C11_neighbours_symmetric : forall b cw ch srcs m,
  admissible b cw ch -> reachable b cw ch srcs m ->
  forall i j c c' d, live_cell m i c -> live_cell m j c' ->
  exists l l', get_neighbours (ng m) (KI (Z.of_nat i)) (KI (code d)) = Ok l /\
    get_neighbours (ng m) (KI (Z.of_nat j)) (KI (code (opposite d))) = Ok l' /\
    (In (Z.of_nat j) l <-> In (Z.of_nat i) l').
Proof. exact neighbours_symmetric. Qed.
Print Assumptions C11_neighbours_symmetric.
Example C11_case : reachable ex_region 1 1 [] ex_m3 /\
  get_neighbours (ng ex_m3) (KI 11) (KI (code dE)) = Ok [5] /\
  get_neighbours (ng ex_m3) (KI 5) (KI (code (opposite dE))) = Ok [9; 11; 13].
Proof. exact (conj ex_reachable (conj eq_refl eq_refl)). Qed.

(** C50.  A split leaves every other cell as it is, and the neighbour lists of
    every cell that did not touch the split cell. *)
Theorem C50_split_is_local : forall b cw ch srcs m i m',
  admissible b cw ch -> reachable b cw ch srcs m -> split_and_replace m i = Ok m' ->
  exists c, live_cell m i c /\
  forall j cj, live_cell m j cj -> j <> i ->
    live_cell m' j cj /\
    ((forall d, ~ touches d (region (cb_bounds c)) (region (cb_bounds cj))) ->
     (spans_globe b -> forall d, ~ touches_mod d (region (cb_bounds c)) (region (cb_bounds cj))) ->
     forall d, get_neighbours (ng m') (KI (Z.of_nat j)) (KI (code d)) =
               get_neighbours (ng m) (KI (Z.of_nat j)) (KI (code d))).
Proof. exact split_is_local. Qed.
Print Assumptions C50_split_is_local.
Example C50_case : reachable ex_region 1 1 [] ex_m2 /\ split_and_replace ex_m2 1 = Ok ex_m3 /\
  (exists c cj, live_cell ex_m2 1 c /\ live_cell ex_m2 6 cj /\
     forall d, ~ touches d (region (cb_bounds c)) (region (cb_bounds cj))).
Proof.
  split; [apply C10_case|]. split; [reflexivity|]. do 2 eexists. split; [reflexivity|]. split; [reflexivity|].
  intros d H. destruct d; cbn in H; destruct H as [H1 H2];
    try (destruct H2 as (z & H2 & H3)); cbn in *; lra.
Qed.
