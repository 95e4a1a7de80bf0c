(** Model of meshiphi/mesh_generation/mesh_builder.py (and the fields of mesh.py
    it uses).  No proofs here. *)
From Verif Require Import Base Geo Graph Cell.
Open Scope Z_scope.

(** numpy [np.arange(a, b, s)] in exact arithmetic: ceil((b-a)/s) values a + k*s. *)
Definition arange (a b s : Q) : list Q :=
  (map (fun k => a + inject_Z (Z.of_nat k) * s) (seq 0 (Z.to_nat (Qceiling ((b - a) / s)))))%Q.

(** mesh_builder.py 319-326 [validate_bounds]; [x % 0] raises. *)
Definition validate_bounds (b : boundary) (cell_width cell_height : Q) : res unit :=
  (if qeqb cell_width 0 || qeqb cell_height 0 then Err ZeroDivisionError
   else if negb (qeqb (qmod (qmod (long_max b - long_min b) 360) cell_width) 0) then Err AssertionError
   else if negb (qeqb (qmod (lat_max b - lat_min b) cell_height) 0) then Err AssertionError
   else Ok tt)%Q.

(** mesh_builder.py 250-259: the western edges of the grid columns. *)
Definition long_columns (b : boundary) (cell_width : Q) : list Q :=
  (map longitude_domain
    (if qltb (long_min b) (long_max b) then arange (long_min b) (long_max b) cell_width
     else arange (long_min b) (long_max b + 360) cell_width))%Q.

(** mesh_builder.py 263-268: bounds of the grid cell at (lat, long). *)
Definition grid_cell_bounds (b : boundary) (cell_width cell_height lat long : Q) : res boundary :=
  (Boundary [lat; lat + cell_height]
            (if qleb (long + cell_width) 180 then [long; long + cell_width]
             else [long; long + cell_width - 360])
            (time_range b))%Q.

(** mesh_builder.py 238-272 [initialize_cellboxes]: bounds of the cells, row by
    row from the south, each row from the west; the id is the position. *)
Definition initialize_bounds (b : boundary) (cell_width cell_height : Q) : res (list boundary) :=
  mapM (fun ll => grid_cell_bounds b cell_width cell_height (fst ll) (snd ll))
       (list_prod (arange (lat_min b) (lat_max b) cell_height) (long_columns b cell_width)).

(** mesh_builder.py 186-216 [initialize_meta_data_subsets]: each source trimmed to
    the cell, starting from the loader's whole data set ([m_subset] of the
    source-level metadata, 180-181). *)
Definition initialize_meta_data_subsets (b : boundary) (srcs : list metadata) : list metadata :=
  map (fun s => mkMeta (m_loader s) (m_conds s) (m_fill s)
                       (l_trim (m_loader s) b (m_subset s))) srcs.

Definition initialize_cellboxes (b : boundary) (cell_width cell_height : Q)
    (srcs : list metadata) : res (list cellbox) :=
  bs <- initialize_bounds b cell_width cell_height ;;
  Ok (map (fun ib => mkCell (snd ib) (Z.of_nat (fst ib)) 0
                            (initialize_meta_data_subsets (snd ib) srcs) None)
          (combine (seq 0 (List.length bs)) bs)).

(** Python slice [l[start::step]] for step > 0 and start >= 0. *)
Definition slice_step {A} (l : list A) (start step : Z) : list A :=
  map snd (filter (fun p => (start <=? Z.of_nat (fst p)) &&
                            ((Z.of_nat (fst p) - start) mod step =? 0))
                  (combine (seq 0 (List.length l)) l)).

(** mesh_builder.py 345-355: the loop body for row [i]. *)
Definition connect_row (mins maxs : list Z) (g : graph) (i : nat) : res graph :=
  let n := Z.of_nat (List.length mins) in
  let zi := Z.of_nat i in
  mn <- py_nth mins zi ;; mx <- py_nth maxs zi ;;
  g <- add_neighbour g (KI mn) (KI west) mx ;;
  g <- add_neighbour g (KI mx) (KI east) mn ;;
  g <- (if (0 <=? zi) && (zi <? n - 1) then
          mx1 <- py_nth maxs (zi + 1) ;; mn1 <- py_nth mins (zi + 1) ;;
          g <- add_neighbour g (KI mn) (KI north_west) mx1 ;;
          add_neighbour g (KI mx) (KI north_east) mn1
        else Ok g) ;;
  if (0 <? zi) && (zi <=? n - 1) then
    mx1 <- py_nth maxs (zi - 1) ;; mn1 <- py_nth mins (zi - 1) ;;
    g <- add_neighbour g (KI mn) (KI south_west) mx1 ;;
    add_neighbour g (KI mx) (KI south_east) mn1
  else Ok g.

(** mesh_builder.py 328-357 [check_global_mesh]; [ids] are [int(cb.get_id())] of
    the initial cellboxes.  Returns the graph and the flag. *)
Definition check_global_mesh (b : boundary) (ids : list Z) (grid_width : Z) (g : graph)
    : res (graph * bool) :=
  if qeqb (long_max b) (qabs (long_min b)) && qeqb (qabs (long_min b)) 180 then
    if grid_width =? 0 then Err ValueError else
    let mins := slice_step ids 0 grid_width in
    let maxs := slice_step ids (grid_width - 1) grid_width in
    g <- foldM (connect_row mins maxs) g (seq 0 (List.length mins)) ;;
    Ok (g, true)
  else Ok (g, false).

(** mesh.py / MeshBuilder state: [mesh.cellboxes], [neighbour_graph] and its
    [_is_global_mesh] flag. *)
Record mesh := mkMesh { cells : list (option cellbox); ng : graph; glob : bool }.

Definition cell_bounds_list (cs : list (option cellbox)) : bounds_list :=
  map (option_map cb_bounds) cs.

(** mesh_builder.py 96-139: the grid part of [__init__]; the config validator is
    in Config.v, the loaders are given. *)
Definition build_mesh (b : boundary) (cell_width cell_height : Q) (srcs : list metadata) : res mesh :=
  _ <- validate_bounds b cell_width cell_height ;;
  cs <- initialize_cellboxes b cell_width cell_height srcs ;;
  let grid_width := (get_width b / cell_width)%Q in
  let g := initialise_neighbour_graph (List.length cs) grid_width in
  gf <- check_global_mesh b (map cb_id cs) (Qfloor grid_width) g ;;
  Ok (mkMesh (map Some cs) (fst gf) (snd gf)).

(** [map[d].append(x)] on a local neighbour map. *)
Definition map_append (m : nmap) (d x : Z) : res nmap :=
  l <- dget m (KI d) ;; Ok (dset m (KI d) (l ++ [x])).

(** The common loop body of the four fill functions (490-555): append [indx]
    under [d1] or [d2] when the new cell touches it that way. *)
Definition fill_one (gl : bool) (cbs : bounds_list) (self d1 d2 : Z) (m : nmap) (indx : Z) : res nmap :=
  a <- bounds_at cbs self ;;
  b <- bounds_at cbs indx ;;
  let case := get_neighbour_case gl a b in
  m <- (if case =? d1 then map_append m d1 indx else Ok m) ;;
  if case =? d2 then map_append m d2 indx else Ok m.

(** mesh_builder.py 490-504 *)
Definition fill_se_map gl cbs se (south_l east_l : list Z) (m : nmap) : res nmap :=
  m <- foldM (fill_one gl cbs se south south_west) m south_l ;;
  foldM (fill_one gl cbs se east north_east) m east_l.
(** mesh_builder.py 507-521 *)
Definition fill_ne_map gl cbs ne (north_l east_l : list Z) (m : nmap) : res nmap :=
  m <- foldM (fill_one gl cbs ne north north_west) m north_l ;;
  foldM (fill_one gl cbs ne east south_east) m east_l.
(** mesh_builder.py 524-538 *)
Definition fill_nw_map gl cbs nw (north_l west_l : list Z) (m : nmap) : res nmap :=
  m <- foldM (fill_one gl cbs nw north north_east) m north_l ;;
  foldM (fill_one gl cbs nw west south_west) m west_l.
(** mesh_builder.py 541-555 *)
Definition fill_sw_neighbour_map gl cbs sw (south_l west_l : list Z) (m : nmap) : res nmap :=
  m <- foldM (fill_one gl cbs sw south_east south) m south_l ;;
  foldM (fill_one gl cbs sw west north_west) m west_l.

(** A neighbour map literal in the order used at 410-459. *)
Definition nmap8 (ne e se s sw w nw n : list Z) : nmap :=
  [ (KI north_east, ne); (KI east, e); (KI south_east, se); (KI south, s);
    (KI south_west, sw); (KI west, w); (KI north_west, nw); (KI north, n) ].

(** mesh_builder.py 393-484: the graph part of [split_and_replace].  [cbs] is the
    cell list after appending the four children, [c] the index of the cell being
    split, [nw ne sw se] the children's indices.  The corner lists of the new maps
    are the list objects of the removed node ([get_neighbours] at 415, 431, 439,
    454); nothing writes to those lists between there and [remove_node] (unless
    the cell is its own neighbour), so sharing is not observable. *)
Definition split_graph (gl : bool) (cbs : bounds_list) (g : graph) (c nw ne sw se : Z) : res graph :=
  south_l <- get_neighbours g (KI c) (KI south) ;;
  north_l <- get_neighbours g (KI c) (KI north) ;;
  east_l <- get_neighbours g (KI c) (KI east) ;;
  west_l <- get_neighbours g (KI c) (KI west) ;;
  csw <- get_neighbours g (KI c) (KI south_west) ;;
  sw_map <- fill_sw_neighbour_map gl cbs sw south_l west_l
              (nmap8 [ne] [se] [] [] csw [] [] [nw]) ;;
  let g := add_node g (KI sw) sw_map in
  cnw <- get_neighbours g (KI c) (KI north_west) ;;
  nw_map <- fill_nw_map gl cbs nw north_l west_l
              (nmap8 [] [ne] [se] [sw] [] [] cnw []) ;;
  let g := add_node g (KI nw) nw_map in
  cne <- get_neighbours g (KI c) (KI north_east) ;;
  ne_map <- fill_ne_map gl cbs ne north_l east_l
              (nmap8 cne [] [] [se] [sw] [nw] [] []) ;;
  let g := add_node g (KI ne) ne_map in
  cse <- get_neighbours g (KI c) (KI south_east) ;;
  se_map <- fill_se_map gl cbs se south_l east_l
              (nmap8 [] [] cse [] [] [sw] [nw] [ne]) ;;
  let g := add_node g (KI se) se_map in
  g <- update_neighbours gl cbs g c nw ne north ;;
  g <- update_neighbours gl cbs g c ne se east ;;
  g <- update_neighbours gl cbs g c sw se south ;;
  g <- update_neighbours gl cbs g c nw sw west ;;
  g <- update_corner_neighbours g c nw ne sw se ;;
  remove_node g (KI c).

(** mesh_builder.py 378-486 [split_and_replace] of the cell at position [i].
    [cellboxes.index] compares by identity, so positions are as stated. *)
Definition split_and_replace (m : mesh) (i : nat) : res mesh :=
  o <- py_nth (cells m) (Z.of_nat i) ;;
  match o with
  | None => Err AttributeError
  | Some c =>
      let n := Z.of_nat (List.length (cells m)) in
      kids <- cell_split c n ;;
      let cs := cells m ++ map Some kids in
      g <- split_graph (glob m) (cell_bounds_list cs) (ng m) (Z.of_nat i) n (n+1) (n+2) (n+3) ;;
      Ok (mkMesh (list_set cs i None) g (glob m))
  end.

(** mesh_builder.py 587-597: [for cellbox in self.mesh.cellboxes] while
    [split_and_replace] appends to that list; [pos] is the iterator position,
    [stop] is index+1. *)
Fixpoint split_pass (fuel : nat) (m : mesh) (pos stop : nat) (depth : Z) : res mesh :=
  match nth_error (cells m) pos with
  | None => Ok m
  | Some o =>
      match fuel with
      | O => Err OutOfFuel
      | S fuel' =>
          m' <- match o with
                | None => Ok m
                | Some c =>
                    s <- should_split c stop ;;
                    if (cb_depth c <? depth) && s then split_and_replace m pos else Ok m
                end ;;
          split_pass fuel' m' (S pos) stop depth
      end
  end.

(** mesh_builder.py 558-602 [split_to_depth].  [data_sources] is read from cell 0,
    which must not have been split (AttributeError on None). *)
Definition split_to_depth (fuel : nat) (m : mesh) (depth : Z) : res mesh :=
  o <- py_nth (cells m) 0 ;;
  match o with
  | None => Err AttributeError
  | Some c0 =>
      let srcs := cb_sources c0 in
      foldM (fun m k =>
               s <- py_nth srcs (Z.of_nat k) ;;
               match m_conds s with
               | [] => Ok m
               | _ :: _ => split_pass fuel m 0 (S k) depth
               end) m (seq 0 (List.length srcs))
  end.

(** mesh_builder.py 604-626 [build_environmental_mesh]: the aggregated cells and
    the graph handed to EnvironmentMesh. *)
Definition build_environmental_mesh (fuel : nat) (m : mesh) (depth : Z)
    : res (mesh * list agg_cellbox) :=
  m' <- split_to_depth fuel m depth ;;
  acs <- mapM aggregate (flat_map (fun o => match o with Some c => [c] | None => [] end) (cells m')) ;;
  Ok (m', acs).
