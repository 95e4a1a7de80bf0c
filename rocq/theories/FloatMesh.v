(** The mesh builder of Builder.v and the graph operations of Graph.v that look at
    coordinates, as the code computes them in double precision.  No proofs here.

    A cell is its bounds and its split depth; which cells are split (a question of
    their data) is left open. *)
From Coq Require Import Floats.SpecFloat Qround.
From Verif Require Import Base Floats FloatGeo Graph Builder.
Open Scope Z_scope.

(** Python's [int(x)] on a float: towards zero; NaN and infinities raise. *)
Definition f_int (x : f64) : res Z :=
  match fval x with
  | Some q => Ok (if qltb q 0 then - Qfloor (- q) else Qfloor q)
  | None => match x with S754_nan => Err ValueError | _ => Err OverflowError end
  end.

(** neighbour_graph.py 428-473 [initialise_map]; [grid_width] is the float of
    mesh_builder.py 105, an int operand is converted (indices are below 2^53). *)
Definition f_opt (c : bool) (x : res Z) : res (list Z) := if c then z <- x ;; Ok [z] else Ok [].
Definition f_initialise_map (i : Z) (grid_width : f64) (len : Z) : res nmap :=
  let fi := fint i in
  let up := flt (fadd fi grid_width) (fint len) in
  let down := fle (fint 0) (fsub fi grid_width) in
  let has_e := negb (feq (py_mod (fint (i + 1)) grid_width) (fint 0)) in
  let has_w := negb (feq (py_mod fi grid_width) (fint 0)) in
  ne <- f_opt (has_e && up) (f_int (fadd (fadd fi grid_width) (fint 1))) ;;
  se <- f_opt (has_e && down) (f_int (fadd (fsub fi grid_width) (fint 1))) ;;
  nw <- f_opt (has_w && up) (f_int (fsub (fadd fi grid_width) (fint 1))) ;;
  sw <- f_opt (has_w && down) (f_int (fsub (fsub fi grid_width) (fint 1))) ;;
  n <- f_opt up (f_int (fadd fi grid_width)) ;;
  s <- f_opt down (f_int (fsub fi grid_width)) ;;
  e <- f_opt has_e (Ok (i + 1)) ;;
  w <- f_opt has_w (Ok (i - 1)) ;;
  Ok [ (KI north_east, ne); (KI east, e); (KI south_east, se); (KI south, s);
       (KI south_west, sw); (KI west, w); (KI north_west, nw); (KI north, n) ].
(** neighbour_graph.py 417-426 *)
Definition f_initialise_graph (len : nat) (grid_width : f64) : res graph :=
  foldM (fun g i => m <- f_initialise_map (Z.of_nat i) grid_width (Z.of_nat len) ;; Ok (add_node g (KI (Z.of_nat i)) m)) [] (seq 0 len).
(** mesh_builder.py 328-357 [check_global_mesh]; the test only is in floats. *)
Definition f_check_global (b : fboundary) (ids : list Z) (grid_width : Z) (g : graph) : res (graph * bool) :=
  if feq (flong_max b) (fabs (flong_min b)) && feq (fabs (flong_min b)) (fint 180) then
    if grid_width =? 0 then Err ValueError else
    let mins := slice_step ids 0 grid_width in
    let maxs := slice_step ids (grid_width - 1) grid_width in
    g <- foldM (connect_row mins maxs) g (seq 0 (List.length mins)) ;;
    Ok (g, true)
  else Ok (g, false).

Record fcell := mkFC { fc_bounds : fboundary; fc_depth : Z }.
Record fmesh := mkFM { fcells : list (option fcell); fng : graph; fglob : bool }.
(** mesh_builder.py 96-139 *)
Definition f_build (b : fboundary) (cell_width cell_height : f64) : res fmesh :=
  _ <- f_validate b cell_width cell_height ;;
  bs <- f_grid b cell_width cell_height ;;
  let grid_width := fdiv (f_width b) cell_width in
  g <- f_initialise_graph (List.length bs) grid_width ;;
  gw <- f_int grid_width ;;
  gf <- f_check_global b (map Z.of_nat (seq 0 (List.length bs))) gw g ;;
  Ok (mkFM (map (fun x => Some (mkFC x 0)) bs) (fst gf) (snd gf)).

(** [cellboxes[i].get_bounds()] *)
Definition f_bounds_at (cs : list (option fcell)) (i : Z) : res fboundary :=
  o <- py_nth cs i ;;
  match o with Some c => Ok (fc_bounds c) | None => Err AttributeError end.
(** neighbour_graph.py 151-164, 137-164 *)
Definition f_add_if_touching (gl : bool) (cs : list (option fcell)) (g : graph) (indx new : Z) : res graph :=
  a <- f_bounds_at cs indx ;;
  b <- f_bounds_at cs new ;;
  let case := f_case gl a b in
  if negb (case =? 0) then add_neighbour g (KI indx) (KI case) new else Ok g.
Definition f_update_neighbours (gl : bool) (cs : list (option fcell)) (g : graph) (c new0 new1 direction : Z) : res graph :=
  g <- remove_node_from_neighbours g (KI c) direction ;;
  l <- get_neighbours g (KI c) (KI direction) ;;
  foldM (fun g indx =>
           g <- f_add_if_touching gl cs g indx new0 ;;
           f_add_if_touching gl cs g indx new1) g l.

(** mesh_builder.py 490-555 *)
Definition f_fill_one (gl : bool) (cs : list (option fcell)) (self d1 d2 : Z) (m : nmap) (indx : Z) : res nmap :=
  a <- f_bounds_at cs self ;;
  b <- f_bounds_at cs indx ;;
  let case := f_case gl a b in
  m <- (if case =? d1 then map_append m d1 indx else Ok m) ;;
  if case =? d2 then map_append m d2 indx else Ok m.
Definition f_fill_se gl cs se (south_l east_l : list Z) (m : nmap) : res nmap :=
  m <- foldM (f_fill_one gl cs se south south_west) m south_l ;;
  foldM (f_fill_one gl cs se east north_east) m east_l.
Definition f_fill_ne gl cs ne (north_l east_l : list Z) (m : nmap) : res nmap :=
  m <- foldM (f_fill_one gl cs ne north north_west) m north_l ;;
  foldM (f_fill_one gl cs ne east south_east) m east_l.
Definition f_fill_nw gl cs nw (north_l west_l : list Z) (m : nmap) : res nmap :=
  m <- foldM (f_fill_one gl cs nw north north_east) m north_l ;;
  foldM (f_fill_one gl cs nw west south_west) m west_l.
Definition f_fill_sw gl cs sw (south_l west_l : list Z) (m : nmap) : res nmap :=
  m <- foldM (f_fill_one gl cs sw south_east south) m south_l ;;
  foldM (f_fill_one gl cs sw west north_west) m west_l.

(** mesh_builder.py 393-484 *)
Definition f_split_graph (gl : bool) (cs : list (option fcell)) (g : graph) (c nw ne sw se : Z) : res graph :=
  south_l <- get_neighbours g (KI c) (KI south) ;;
  north_l <- get_neighbours g (KI c) (KI north) ;;
  east_l <- get_neighbours g (KI c) (KI east) ;;
  west_l <- get_neighbours g (KI c) (KI west) ;;
  csw <- get_neighbours g (KI c) (KI south_west) ;;
  sw_map <- f_fill_sw gl cs sw south_l west_l (nmap8 [ne] [se] [] [] csw [] [] [nw]) ;;
  let g := add_node g (KI sw) sw_map in
  cnw <- get_neighbours g (KI c) (KI north_west) ;;
  nw_map <- f_fill_nw gl cs nw north_l west_l (nmap8 [] [ne] [se] [sw] [] [] cnw []) ;;
  let g := add_node g (KI nw) nw_map in
  cne <- get_neighbours g (KI c) (KI north_east) ;;
  ne_map <- f_fill_ne gl cs ne north_l east_l (nmap8 cne [] [] [se] [sw] [nw] [] []) ;;
  let g := add_node g (KI ne) ne_map in
  cse <- get_neighbours g (KI c) (KI south_east) ;;
  se_map <- f_fill_se gl cs se south_l east_l (nmap8 [] [] cse [] [] [sw] [nw] [ne]) ;;
  let g := add_node g (KI se) se_map in
  g <- f_update_neighbours gl cs g c nw ne north ;;
  g <- f_update_neighbours gl cs g c ne se east ;;
  g <- f_update_neighbours gl cs g c sw se south ;;
  g <- f_update_neighbours gl cs g c nw sw west ;;
  g <- update_corner_neighbours g c nw ne sw se ;;
  remove_node g (KI c).
(** mesh_builder.py 378-486 [split_and_replace]; cellbox.py 234-263 [split] *)
Definition f_split_and_replace (m : fmesh) (i : nat) : res fmesh :=
  o <- py_nth (fcells m) (Z.of_nat i) ;;
  match o with
  | None => Err AttributeError
  | Some c =>
      let n := Z.of_nat (List.length (fcells m)) in
      kids <- f_split (fc_bounds c) ;;
      let cs := fcells m ++ map (fun x => Some (mkFC x (fc_depth c + 1))) kids in
      g <- f_split_graph (fglob m) cs (fng m) (Z.of_nat i) n (n+1) (n+2) (n+3) ;;
      Ok (mkFM (list_set cs i None) g (fglob m))
  end.
