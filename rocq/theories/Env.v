(** Model of meshiphi/mesh_generation/environment_mesh.py and
    aggregated_cellbox.py: JSON, queries, splitting and merging of a mesh whose
    cells have been aggregated.  No proofs here.

    Ids are strings str(n) in the code and the int n here; the neighbour lists
    hold ints and the graph of a loaded mesh has string keys ([KS]). *)
From Verif Require Import Base Geo Graph Cell Builder.
Open Scope Z_scope.

(** ** Polygons *)
(** shapely geometries: one ring of (longitude, latitude) pairs, or several. *)
Definition ring := list (Q * Q).
Inductive polygon := Poly (r : ring) | MPoly (rs : list ring).

(** The ring written at 349-356 and the following cases: SW, NW, NE, SE, SW. *)
Definition rect_ring (w s e n : Q) : ring := [(w, s); (w, n); (e, n); (e, s); (w, s)].

(** boundary.py 340-393 [to_polygon]. *)
Definition to_polygon (b : boundary) : polygon :=
  (if qltb (long_min b) (long_max b) then Poly (rect_ring (long_min b) (lat_min b) (long_max b) (lat_max b))
   else if qeqb (long_min b) 180 then Poly (rect_ring (-180) (lat_min b) (long_max b) (lat_max b))
   else if qeqb (long_max b) (-180) then Poly (rect_ring (long_min b) (lat_min b) 180 (lat_max b))
   else MPoly [rect_ring (long_min b) (lat_min b) 180 (lat_max b);
               rect_ring (-180) (lat_min b) (long_max b) (lat_max b)])%Q.

(** shapely's [.bounds] of a ring: the extrema of its coordinates. *)
Definition qmin (a b : Q) : Q := if qltb b a then b else a.
Definition qmax (a b : Q) : Q := if qltb a b then b else a.
Definition min_list (l : list Q) : Q := match l with [] => 0%Q | x :: l' => fold_left qmin l' x end.
Definition max_list (l : list Q) : Q := match l with [] => 0%Q | x :: l' => fold_left qmax l' x end.
Definition ring_xs (r : ring) : list Q := map fst r.
Definition ring_ys (r : ring) : list Q := map snd r.

(** shapely's [contains(Point(x, y))] for a rectangular ring: the open interior.
    (Assumed of shapely; every polygon in this code is made of such rings.) *)
Definition ring_contains (r : ring) (x y : Q) : bool :=
  qltb (min_list (ring_xs r)) x && qltb x (max_list (ring_xs r)) &&
  qltb (min_list (ring_ys r)) y && qltb y (max_list (ring_ys r)).
Definition polygon_contains (p : polygon) (x y : Q) : bool :=
  match p with
  | Poly r => ring_contains r x y
  | MPoly rs => existsb (fun r => ring_contains r x y) rs
  end.

(** ** Cells *)
(** Values in a cell's dictionary or JSON object.  [JId z] is the string str(z),
    [JGeom p] the WKT text of p (text and back is assumed lossless). *)
Inductive jval := JNum (v : option Q) | JText (s : string) | JId (z : Z) | JGeom (p : polygon).

(** aggregated_cellbox.py 69-80 *)
Record ecell := mkE { e_bounds : boundary; e_data : sdict jval; e_id : Z }.

Definition jval_of (v : aval) : jval :=
  match v with Num q => JNum q | NanString => JText "Nan" end.
(** The object CellBox.aggregate returns, as this file's cells. *)
Definition ecell_of (a : agg_cellbox) : ecell :=
  mkE (ac_bounds a) (map (fun kv => (fst kv, jval_of (snd kv))) (ac_data a)) (ac_id a).

(** aggregated_cellbox.py 120-152 [to_json] *)
Definition cell_to_json (c : ecell) : sdict jval :=
  let b := e_bounds c in
  sset (supdate [ ("geometry"%string, JGeom (to_polygon b));
                  ("cx"%string, JNum (Some (getcx b)));
                  ("cy"%string, JNum (Some (getcy b)));
                  ("dcx"%string, JNum (Some (getdcx b)));
                  ("dcy"%string, JNum (Some (getdcy b))) ] (e_data c))
       "id"%string (JId (e_id c)).

Definition reserved (k : string) : bool :=
  existsb (String.eqb k) ["geometry"; "cx"; "cy"; "dcx"; "dcy"; "id"]%string.

(** aggregated_cellbox.py 25-50 [load_bounds]; the Boundary gets no time range. *)
Definition load_bounds (p : polygon) : res boundary :=
  match p with
  | Poly r => Boundary [min_list (ring_ys r); max_list (ring_ys r)]
                       [min_list (ring_xs r); max_list (ring_xs r)] []
  | MPoly [a; b] => Boundary [min_list (ring_ys a); max_list (ring_ys a)]
                             [min_list (ring_xs a); max_list (ring_xs b)] []
  | MPoly _ => Err AssertionError
  end.

(** aggregated_cellbox.py 17-64 [from_json].  A missing or ill-typed "id" or
    "geometry" is an error; [to_json] always writes both. *)
Definition cell_from_json (j : sdict jval) : res ecell :=
  match sget j "id"%string with
  | Some (JId i) =>
      match sget j "geometry"%string with
      | Some (JGeom p) =>
          b <- load_bounds p ;;
          Ok (mkE b (filter (fun kv => negb (reserved (fst kv))) j) i)
      | Some _ => Err TypeError
      | None => Err KeyError
      end
  | Some _ => Err TypeError
  | None => Err KeyError
  end.

(** ** Meshes *)
(** The parts of [config] that are read: region (with times), cell size, split
    depth, and the configs appended by [merge_mesh]. *)
Inductive config := mkCfg (region : boundary) (cell_width cell_height : Q) (split_depth : Z) (merged : list config).
Definition c_region (c : config) := match c with mkCfg r _ _ _ _ => r end.
Definition c_width (c : config) := match c with mkCfg _ w _ _ _ => w end.
Definition c_height (c : config) := match c with mkCfg _ _ h _ _ => h end.
Definition c_depth (c : config) := match c with mkCfg _ _ _ d _ => d end.
Definition c_merged (c : config) := match c with mkCfg _ _ _ _ m => m end.

(** environment_mesh.py 99-112 *)
Record emesh := mkEM { em_bounds : boundary; em_cells : list ecell; em_graph : graph; em_config : config }.
Definition set_graph (m : emesh) (g : graph) : emesh := mkEM (em_bounds m) (em_cells m) g (em_config m).
Definition set_cells (m : emesh) (l : list ecell) : emesh := mkEM (em_bounds m) l (em_graph m) (em_config m).

(** The JSON document. *)
Record mesh_json := mkJ { j_config : config; j_cells : list (sdict jval); j_graph : graph }.

(** json.dumps turns every key into a string; json.loads keeps the last of equal
    keys at the position of the first. *)
Definition string_keys {V} (d : dict V) : dict V :=
  fold_left (fun acc kv => dset acc (KS (key_int (fst kv))) (snd kv)) d [].
Definition graph_to_json (g : graph) : graph :=
  string_keys (map (fun kv => (fst kv, string_keys (snd kv))) g).

(** 1092-1111 [to_json], 1423-1454 [cellboxes_to_json] *)
Definition to_json (m : emesh) : mesh_json :=
  mkJ (em_config m) (map cell_to_json (em_cells m)) (graph_to_json (em_graph m)).

(** 34-97 [load_from_json]; boundary.py 24-48 [from_json]; neighbour_graph.py
    44-55 [from_json] copies the dictionary and leaves [_is_global_mesh] False. *)
Definition load_from_json (j : mesh_json) : res emesh :=
  let r := c_region (j_config j) in
  b <- Boundary [lat_min r; lat_max r] [long_min r; long_max r] (time_range r) ;;
  cs <- mapM cell_from_json (j_cells j) ;;
  Ok (mkEM b cs (j_graph j) (j_config j)).

(** mesh_builder.py 604-626: what [build_environmental_mesh] passes on. *)
Definition env_of (cfg : config) (m : mesh) (acs : list agg_cellbox) : emesh :=
  mkEM (c_region cfg) (map ecell_of acs) (ng m) cfg.

(** ** Queries *)
(** aggregated_cellbox.py 156-170 *)
Definition contains_point (c : ecell) (lat long : Q) : bool :=
  polygon_contains (to_polygon (e_bounds c)) long lat.
(** 114-127 *)
Definition query_inside_mesh (m : emesh) (lat long : Q) : bool :=
  existsb (fun c => contains_point c lat long) (em_cells m).
(** 129-148 *)
Definition query_index (m : emesh) (lat long : Q) : res Z :=
  match filter (fun c => contains_point c lat long) (em_cells m) with
  | [] => Err PlainException
  | [c] => Ok (e_id c)
  | _ => Err PlainException
  end.
(** 197-208 [get_cellbox]: first cell whose id prints the same; [None] if there
    is none, and every caller then fails with AttributeError. *)
Definition get_cellbox (cs : list ecell) (i : Z) : res ecell :=
  match find (fun c => e_id c =? i) cs with
  | Some c => Ok c
  | None => Err AttributeError
  end.

(** ** Splitting *)
(** 727-738 *)
Definition get_max_cellbox_id (cs : list ecell) : Z :=
  fold_left (fun mx c => if mx <? e_id c then e_id c else mx) cs 0.

(** 766-798 [sim_split_cellbox]; boundary_split is in the order SW, NW, SE, NE. *)
Definition sim_split_cellbox (cs : list ecell) (i : Z) : res (list ecell) :=
  c <- get_cellbox cs i ;;
  let mx := get_max_cellbox_id cs in
  bs <- boundary_split (e_bounds c) ;;
  Ok (map (fun kb => mkE (snd kb) (sset (e_data c) "id"%string (JId (mx + fst kb))) (mx + fst kb))
          (combine [1; 2; 3; 4] bs)).

Definition emap_append (m : nmap) (d x : Z) : res nmap :=
  l <- dget m (KS d) ;; Ok (dset m (KS d) (l ++ [x])).

(** The common loop body of 975-1089. *)
Definition efill_one (cs : list ecell) (self d1 d2 : Z) (m : nmap) (indx : Z) : res nmap :=
  a <- get_cellbox cs self ;;
  b <- get_cellbox cs indx ;;
  let case := get_neighbour_case_bounds (e_bounds a) (e_bounds b) in
  m <- (if case =? d1 then emap_append m d1 indx else Ok m) ;;
  if case =? d2 then emap_append m d2 indx else Ok m.

(** 975-1003 *)
Definition efill_se cs se (south_l east_l : list Z) (m : nmap) : res nmap :=
  m <- foldM (efill_one cs se south south_west) m south_l ;;
  foldM (efill_one cs se east north_east) m east_l.
(** 1005-1033 *)
Definition efill_ne cs ne (north_l east_l : list Z) (m : nmap) : res nmap :=
  m <- foldM (efill_one cs ne north north_west) m north_l ;;
  foldM (efill_one cs ne east south_east) m east_l.
(** 1035-1061 *)
Definition efill_sw cs sw (south_l west_l : list Z) (m : nmap) : res nmap :=
  m <- foldM (efill_one cs sw south_east south) m south_l ;;
  foldM (efill_one cs sw west north_west) m west_l.
(** 1063-1089 *)
Definition efill_nw cs nw (north_l west_l : list Z) (m : nmap) : res nmap :=
  m <- foldM (efill_one cs nw north north_east) m north_l ;;
  foldM (efill_one cs nw west south_west) m west_l.

(** A neighbour map literal with string keys, in the order of 831-887. *)
Definition smap8 (ne e se s sw w nw n : list Z) : nmap :=
  [ (KS north_east, ne); (KS east, e); (KS south_east, se); (KS south, s);
    (KS south_west, sw); (KS west, w); (KS north_west, nw); (KS north, n) ].

(** 896-909: one corner. *)
Definition eupdate_corner (g : graph) (c : pykey) (direction opposite new : Z) : res graph :=
  l <- get_neighbours g c (KS direction) ;;
  match l with
  | [] => Ok g
  | x :: _ => update_neighbour g (KS x) (KS opposite) [new]
  end.

(** 918-967: one neighbour of one side tested against one new cell. *)
Definition eadd_if_touching (cs : list ecell) (g : graph) (indx new : Z) : res graph :=
  a <- get_cellbox cs indx ;;
  b <- get_cellbox cs new ;;
  let case := get_neighbour_case_bounds (e_bounds a) (e_bounds b) in
  if negb (case =? 0) then add_neighbour g (KS indx) (KS case) new else Ok g.

(** 918-967: one side; [l] is the list read at 818-821, before any change. *)
Definition eupdate_side (cs : list ecell) (c : pykey) (direction new0 new1 : Z) (l : list Z) (g : graph) : res graph :=
  g <- remove_node_from_neighbours g c direction ;;
  foldM (fun g indx =>
           g <- eadd_if_touching cs g indx new0 ;;
           eadd_if_touching cs g indx new1) g l.

(** 811-973: the graph part of [split_and_replace]; [c] is the id as passed by
    the caller, [cs] the cells after appending the four children.  As in the
    builder, corner lists are shared with the removed node but not written
    before it is removed. *)
Definition esplit_graph (cs : list ecell) (g : graph) (c : pykey) (nw ne sw se : Z) : res graph :=
  south_l <- get_neighbours g c (KS south) ;;
  north_l <- get_neighbours g c (KS north) ;;
  east_l <- get_neighbours g c (KS east) ;;
  west_l <- get_neighbours g c (KS west) ;;
  csw <- get_neighbours g c (KS south_west) ;;
  sw_map <- efill_sw cs sw south_l west_l (smap8 [ne] [se] [] [] csw [] [] [nw]) ;;
  let g := add_node g (KS sw) sw_map in
  cnw <- get_neighbours g c (KS north_west) ;;
  nw_map <- efill_nw cs nw north_l west_l (smap8 [] [ne] [se] [sw] [] [] cnw []) ;;
  let g := add_node g (KS nw) nw_map in
  cne <- get_neighbours g c (KS north_east) ;;
  ne_map <- efill_ne cs ne north_l east_l (smap8 cne [] [] [se] [sw] [nw] [] []) ;;
  let g := add_node g (KS ne) ne_map in
  cse <- get_neighbours g c (KS south_east) ;;
  se_map <- efill_se cs se south_l east_l (smap8 [] [] cse [] [] [sw] [nw] [ne]) ;;
  let g := add_node g (KS se) se_map in
  g <- eupdate_corner g c north_east south_west ne ;;
  g <- eupdate_corner g c south_east north_west se ;;
  g <- eupdate_corner g c north_west south_east nw ;;
  g <- eupdate_corner g c south_west north_east sw ;;
  g <- eupdate_side cs c north ne nw north_l g ;;
  g <- eupdate_side cs c south se sw south_l g ;;
  g <- eupdate_side cs c east ne se east_l g ;;
  g <- eupdate_side cs c west nw sw west_l g ;;
  remove_node g c.

(** [agg_cellboxes.remove(get_cellbox(id))]: the first cell with that id.  (An
    earlier cell that compares equal would have the same id.) *)
Fixpoint remove_first (i : Z) (cs : list ecell) : list ecell :=
  match cs with
  | [] => []
  | c :: cs' => if e_id c =? i then cs' else c :: remove_first i cs'
  end.

(** 800-973 [split_and_replace] *)
Definition esplit_and_replace (m : emesh) (c : pykey) : res emesh :=
  kids <- sim_split_cellbox (em_cells m) (key_int c) ;;
  let mx := get_max_cellbox_id (em_cells m) in
  let cs := em_cells m ++ kids in
  g <- esplit_graph cs (em_graph m) c (mx + 2) (mx + 4) (mx + 1) (mx + 3) ;;
  Ok (mkEM (em_bounds m) (remove_first (key_int c) cs) g (em_config m)).

(** 152-180 [_split_loc] *)
Definition split_loc (m : emesh) (lat long : Q) : res (emesh * bool) :=
  i <- query_index m lat long ;;
  c <- get_cellbox (em_cells m) i ;;
  let min_dcx := (c_width (em_config m) / 2 ^ c_depth (em_config m))%Q in
  let min_dcy := (c_height (em_config m) / 2 ^ c_depth (em_config m))%Q in
  if qleb (get_width (e_bounds c)) min_dcx || qleb (get_height (e_bounds c)) min_dcy then Ok (m, false)
  else m' <- esplit_and_replace m (KS (e_id c)) ;; Ok (m', true).

(** 183-195 [split_points]; the [while] loop on fuel. *)
Fixpoint split_while (fuel : nat) (m : emesh) (lat long : Q) : res emesh :=
  match fuel with
  | O => Err OutOfFuel
  | S fuel' =>
      r <- split_loc m lat long ;;
      if snd r then split_while fuel' (fst r) lat long else Ok (fst r)
  end.
Definition split_points (fuel : nat) (m : emesh) (points : list (Q * Q)) : res emesh :=
  foldM (fun m p => if query_inside_mesh m (fst p) (snd p)
                    then split_while fuel m (fst p) (snd p) else Ok m) m points.

(** ** Merging *)
(** 262-298 [validate_merge_compatibility]; [x % 0] raises. *)
Definition validate_merge (m1 m2 : emesh) : res bool :=
  (let w := c_width (em_config m1) in
   let h := c_height (em_config m1) in
   if qeqb h 0 then Err ZeroDivisionError
   else if negb (qeqb (qmod (get_height (em_bounds m2)) h) 0) then Ok false
   else if qeqb w 0 then Err ZeroDivisionError
   else if negb (qeqb (qmod (get_width (em_bounds m2)) w) 0) then Ok false
   else if negb (qeqb (qmod (lat_min (em_bounds m1) - lat_min (em_bounds m2)) h) 0) then Ok false
   else if negb (qeqb (qmod (long_min (em_bounds m1) - long_min (em_bounds m2)) w) 0) then Ok false
   else Ok true)%Q.

(** 574-596 *)
Definition within_bounds (b : boundary) (c : ecell) : bool :=
  qleb (long_min b) (long_min (e_bounds c)) && qleb (long_max (e_bounds c)) (long_max b) &&
  qleb (lat_min b) (lat_min (e_bounds c)) && qleb (lat_max (e_bounds c)) (lat_max b).
(** 599-659 *)
Definition north_of (b : boundary) (c : ecell) : bool :=
  qeqb (lat_min (e_bounds c)) (lat_max b) &&
  qleb (long_min b) (long_max (e_bounds c)) && qleb (long_min (e_bounds c)) (long_max b).
Definition south_of (b : boundary) (c : ecell) : bool :=
  qeqb (lat_max (e_bounds c)) (lat_min b) &&
  qleb (long_min b) (long_max (e_bounds c)) && qleb (long_min (e_bounds c)) (long_max b).
Definition east_of (b : boundary) (c : ecell) : bool :=
  qeqb (long_min (e_bounds c)) (long_max b) &&
  qleb (lat_min b) (lat_min (e_bounds c)) && qleb (lat_max (e_bounds c)) (lat_max b).
Definition west_of (b : boundary) (c : ecell) : bool :=
  qeqb (long_max (e_bounds c)) (long_min b) &&
  qleb (lat_min b) (lat_min (e_bounds c)) && qleb (lat_max (e_bounds c)) (lat_max b).
(** 662-712 *)
Definition top_edge (b : boundary) (c : ecell) : bool := qeqb (lat_max (e_bounds c)) (lat_max b).
Definition bottom_edge (b : boundary) (c : ecell) : bool := qeqb (lat_min (e_bounds c)) (lat_min b).
Definition right_edge (b : boundary) (c : ecell) : bool := qeqb (long_max (e_bounds c)) (long_max b).
Definition left_edge (b : boundary) (c : ecell) : bool := qeqb (long_min (e_bounds c)) (long_min b).

(** 740-749 [remove_cellbox]; [list.remove] compares cells, of which the ids are
    assumed distinct. *)
Definition remove_cellbox (m : emesh) (c : ecell) : res emesh :=
  g <- remove_node_and_update_neighbours (em_graph m) (KS (e_id c)) ;;
  Ok (mkEM (em_bounds m) (remove_first (e_id c) (em_cells m)) g (em_config m)).
(** 715-725 *)
Definition remove_cellboxes_within_bounds (m : emesh) (b : boundary) : res emesh :=
  foldM remove_cellbox m (filter (within_bounds b) (em_cells m)).

(** 757-763; neighbour_graph.py 57-75.  Line 761 adds the increment to the id
    that line 760 has already incremented. *)
Definition increment_cell (inc : Z) (c : ecell) : ecell :=
  mkE (e_bounds c) (sset (e_data c) "id"%string (JId (e_id c + inc + inc))) (e_id c + inc).
Definition increment_map (inc : Z) (m : nmap) : nmap :=
  map (fun kv => (fst kv, map (fun x => x + inc) (snd kv))) m.
Definition increment_graph (inc : Z) (g : graph) : graph :=
  fold_left (fun acc kv => dset acc (KS (key_int (fst kv) + inc)) (increment_map inc (snd kv))) g [].
Definition increment_ids (inc : Z) (m : emesh) : emesh :=
  mkEM (em_bounds m) (map (increment_cell inc) (em_cells m)) (increment_graph inc (em_graph m)) (em_config m).

(** One half of the tie functions (300-571): every cell of [from] gets the cells
    of [to] that touch it in one of the directions [ds], direction by direction. *)
Definition tie_one (ds : list Z) (to : list ecell) (g : graph) (c : ecell) : res graph :=
  foldM (fun g d =>
           foldM (fun g x => add_neighbour g (KS (e_id c)) (KS d) x) g
                 (map e_id (filter (fun c' => get_neighbour_case_bounds (e_bounds c) (e_bounds c') =? d) to)))
        g ds.
Definition tie (ext_dirs int_dirs : list Z) (ext int : list ecell) (g : graph) : res graph :=
  g <- foldM (tie_one ext_dirs int) g ext ;;
  foldM (tie_one int_dirs ext) g int.
(** 300-367, 369-435, 437-503, 505-571 *)
Definition tie_northern := tie [south; south_west; south_east] [north; north_west; north_east].
Definition tie_southern := tie [north; north_west; north_east] [south; south_west; south_east].
Definition tie_eastern := tie [west; south_west; north_west] [east; south_east; north_east].
Definition tie_western := tie [east; south_east; north_east] [west; south_west; north_west].

Definition append_config (c c2 : config) : config :=
  match c with mkCfg r w h d ms => mkCfg r w h d (ms ++ [c2]) end.

(** The other mesh shares its neighbour maps with the merged graph (250-252), so
    the ties show up in it too. *)
Definition shared_maps (own merged : graph) : graph :=
  map (fun kv => (fst kv, match dget_opt merged (fst kv) with Some m => m | None => snd kv end)) own.

(** 211-260 [merge_mesh]: both meshes afterwards. *)
Definition merge_mesh (m1 m2 : emesh) : res (emesh * emesh) :=
  ok <- validate_merge m1 m2 ;;
  if negb ok then Err AssertionError else
  let b2 := em_bounds m2 in
  let cfg := append_config (em_config m1) (em_config m2) in
  k <- remove_cellboxes_within_bounds m1 b2 ;;
  let m2' := increment_ids (get_max_cellbox_id (em_cells k) + 1) m2 in
  let cs := em_cells k ++ em_cells m2' in
  let g := fold_left (fun g kv => add_node g (fst kv) (snd kv)) (em_graph m2') (em_graph k) in
  g <- tie_northern (filter (north_of b2) cs) (filter (top_edge b2) (em_cells m2')) g ;;
  g <- tie_southern (filter (south_of b2) cs) (filter (bottom_edge b2) (em_cells m2')) g ;;
  g <- tie_eastern (filter (east_of b2) cs) (filter (right_edge b2) (em_cells m2')) g ;;
  g <- tie_western (filter (west_of b2) cs) (filter (left_edge b2) (em_cells m2')) g ;;
  Ok (mkEM (em_bounds k) cs g cfg, set_graph m2' (shared_maps (em_graph m2') g)).

(** ** 1456-1467 [update_cellbox]: the guard [index > -1 or index < len] holds for
    every integer, so Python indexing decides. *)
Definition update_cellbox (m : emesh) (index : Z) (values : sdict jval) : res emesh :=
  let n := Z.of_nat (List.length (em_cells m)) in
  if (-1 <? index) || (index <? n) then
    c <- py_nth (em_cells m) index ;;
    let i := if index <? 0 then index + n else index in
    Ok (set_cells m (list_set (em_cells m) (Z.to_nat i)
                      (mkE (e_bounds c) (supdate (e_data c) values) (e_id c))))
  else Err ValueError.
