(** Model of meshiphi/mesh_generation/neighbour_graph.py and direction.py.
    No proofs here. *)
From Verif Require Import Base Geo.
Open Scope Z_scope.

(** direction.py: the eight directions are ints, opposite = negation. *)
Definition north_east : Z := 1.
Definition east : Z := 2.
Definition south_east : Z := 3.
Definition south : Z := 4.
Definition south_west : Z := -1.
Definition west : Z := -2.
Definition north_west : Z := -3.
Definition north : Z := -4.

(** neighbour_graph.py 206-270 [get_neighbour_case_bounds]; the same cascade is
    repeated for cellboxes at 317-352. *)
Definition get_neighbour_case_bounds (a b : boundary) : Z :=
  (let long_a := long_min a in let lat_a := lat_min a in
   let long_b := long_min b in let lat_b := lat_min b in
   let wa := get_width a in let ha := get_height a in
   let wb := get_width b in let hb := get_height b in
   if qeqb (long_a + wa) long_b && qeqb (lat_a + ha) lat_b then north_east
   else if qeqb (long_a + wa) long_b && qltb lat_b (lat_a + ha) && qltb lat_a (lat_b + hb) then east
   else if qeqb (long_a + wa) long_b && qeqb lat_a (lat_b + hb) then south_east
   else if qeqb (lat_b + hb) lat_a && qltb long_a (long_b + wb) && qltb long_b (long_a + wa) then south
   else if qeqb long_a (long_b + wb) && qeqb lat_a (lat_b + hb) then south_west
   else if qeqb (long_b + wb) long_a && qltb lat_b (lat_a + ha) && qltb lat_a (lat_b + hb) then west
   else if qeqb long_a (long_b + wb) && qeqb (lat_a + ha) lat_b then north_west
   else if qeqb lat_b (lat_a + ha) && qltb long_a (long_b + wb) && qltb long_b (long_a + wa) then north
   else 0%Z)%Q.

(** neighbour_graph.py 354-409 [get_global_mesh_neighbour_case]. *)
Definition get_global_mesh_neighbour_case (a b : boundary) : Z :=
  (let long_a := long_min a in let lat_a := lat_min a in
   let long_b := long_min b in let lat_b := lat_min b in
   let wa := get_width a in let ha := get_height a in
   let wb := get_width b in let hb := get_height b in
   if qeqb (long_a + wa) (qabs long_b) && qeqb (lat_a + ha) lat_b then north_east
   else if qeqb (long_a + wa) (qabs long_b) && qltb lat_b (lat_a + ha) && qltb lat_a (lat_b + hb) then east
   else if qeqb (long_a + wa) (qabs long_b) && qeqb lat_a (lat_b + hb) then south_east
   else if qeqb (lat_b + hb) lat_a && qltb long_a (long_b + wb) && qltb long_b (long_a + wa) then south
   else if qeqb (qabs long_a) (long_b + wb) && qeqb lat_a (lat_b + hb) then south_west
   else if qeqb (long_b + wb) (qabs long_a) && qltb lat_b (lat_a + ha) && qltb lat_a (lat_b + hb) then west
   else if qeqb (qabs long_a) (long_b + wb) && qeqb (lat_a + ha) lat_b then north_west
   else if qeqb lat_b (lat_a + ha) && qltb long_a (long_b + wb) && qltb long_b (long_a + wa) then north
   else 0%Z)%Q.

(** neighbour_graph.py 301-313 [on_global_bound]. *)
Definition on_global_bound (a b : boundary) : bool :=
  (qeqb (long_min a) (-180) && qeqb (long_max b) 180) ||
  (qeqb (long_min b) (-180) && qeqb (long_max a) 180).

(** neighbour_graph.py 272-352 [get_neighbour_case]; [glob] is
    [self._is_global_mesh], the cellboxes are given by their bounds. *)
Definition get_neighbour_case (glob : bool) (a b : boundary) : Z :=
  if glob && on_global_bound a b then get_global_mesh_neighbour_case a b
  else get_neighbour_case_bounds a b.

(** The graph dictionary: node -> direction -> list of ints. *)
Definition nmap := dict (list Z).
Definition graph := dict nmap.

(** 114-118 [get_neighbours] and every read [self.neighbour_graph[i][d]]. *)
Definition get_neighbours (g : graph) (i d : pykey) : res (list Z) :=
  m <- dget g i ;; dget m d.
(** 84-88 [update_neighbour] and every write [self.neighbour_graph[i][d] = l]. *)
Definition update_neighbour (g : graph) (i d : pykey) (l : list Z) : res graph :=
  m <- dget g i ;; Ok (dset g i (dset m d l)).
(** 90-99 [add_neighbour] and every [self.neighbour_graph[i][d].append(x)]. *)
Definition add_neighbour (g : graph) (i d : pykey) (x : Z) : res graph :=
  l <- get_neighbours g i d ;; update_neighbour g i d (l ++ [x]).
(** 120-127 [add_node] *)
Definition add_node (g : graph) (i : pykey) (m : nmap) : graph := dset g i m.
(** 129-135 [remove_node] *)
Definition remove_node (g : graph) (i : pykey) : res graph := dpop g i.
(** 411-415 [remove_neighbour] and every [self.neighbour_graph[i][d].remove(x)]. *)
Definition remove_neighbour (g : graph) (i d : pykey) (x : Z) : res graph :=
  l <- get_neighbours g i d ;; l' <- lremove x l ;; update_neighbour g i d l'.

(** 182: [.remove(cellbox_indx)] with the node key itself: a string is never
    equal to the ints in the list. *)
Definition remove_neighbour_key (g : graph) (i d x : pykey) : res graph :=
  match x with
  | KI z => remove_neighbour g i d z
  | KS _ => l <- get_neighbours g i d ;; Err ValueError
  end.

(** 180-184: the loop body of [remove_node_from_neighbours], with its
    [try ... except KeyError].  When the KeyError occurs nothing has been
    modified yet (both lookups precede [.remove]), so the handler starts from
    the same graph. *)
Definition remove_from_one (c : pykey) (direction : Z) (g : graph) (indx : Z) : res graph :=
  match remove_neighbour_key g (KI indx) (KI (- direction)) c with
  | Err KeyError => remove_neighbour g (KS indx) (KS (- direction)) (key_int c)
  | r => r
  end.

(** 166-184 [remove_node_from_neighbours].  The list iterated over is read once:
    the loop only shortens lists of direction [-direction], which is never the
    list object being iterated. *)
Definition remove_node_from_neighbours (g : graph) (c : pykey) (direction : Z) : res graph :=
  l <- match get_neighbours g c (KI direction) with
       | Err KeyError => get_neighbours g c (KS direction)
       | r => r
       end ;;
  foldM (remove_from_one c direction) g l.

(** 101-112 [remove_node_and_update_neighbours]: directions in the order of
    direction.py's instance attributes (1,2,3,4,-1,-2,-3,-4). *)
Definition remove_node_and_update_neighbours (g : graph) (c : pykey) : res graph :=
  g <- foldM (fun g d => remove_node_from_neighbours g c d) g
         [north_east; east; south_east; south; south_west; west; north_west; north] ;;
  dpop g c.

(** The mesh's list of cellboxes as the graph sees it: [None] for split cells. *)
Definition bounds_list := list (option boundary).
(** [cellboxes[i].get_bounds()]; [None] has no such attribute. *)
Definition bounds_at (cbs : bounds_list) (i : Z) : res boundary :=
  o <- py_nth cbs i ;;
  match o with Some b => Ok b | None => Err AttributeError end.

(** 151-164: loop body of [update_neighbours] for one neighbour and one new cell. *)
Definition add_if_touching (glob : bool) (cbs : bounds_list) (g : graph) (indx new : Z) : res graph :=
  a <- bounds_at cbs indx ;;
  b <- bounds_at cbs new ;;
  let case := get_neighbour_case glob a b in
  if negb (case =? 0) then add_neighbour g (KI indx) (KI case) new else Ok g.

(** 137-164 [update_neighbours]; [new0], [new1] are the two elements of
    [new_neighbours_indx].  The iterated list is read once: the loop appends only
    to lists of the neighbours [indx], which is the iterated list only if a cell
    is its own neighbour (single-column global mesh). *)
Definition update_neighbours (glob : bool) (cbs : bounds_list) (g : graph)
    (c new0 new1 direction : Z) : res graph :=
  g <- remove_node_from_neighbours g (KI c) direction ;;
  l <- get_neighbours g (KI c) (KI direction) ;;
  foldM (fun g indx =>
           g <- add_if_touching glob cbs g indx new0 ;;
           add_if_touching glob cbs g indx new1) g l.

(** 190-204: one of the four blocks of [update_corner_neighbours]. *)
Definition update_corner (g : graph) (c : Z) (direction opposite new : Z) : res graph :=
  l <- get_neighbours g (KI c) (KI direction) ;;
  match l with
  | [] => Ok g
  | x :: _ => update_neighbour g (KI x) (KI opposite) [new]
  end.
(** 186-204 [update_corner_neighbours] *)
Definition update_corner_neighbours (g : graph) (c nw ne sw se : Z) : res graph :=
  g <- update_corner g c north_east south_west ne ;;
  g <- update_corner g c north_west south_east nw ;;
  g <- update_corner g c south_east north_west se ;;
  update_corner g c south_west north_east sw.

(** 428-473 [initialise_map].  [grid_width] is the float [width/cell_width];
    it is an exact integer for every mesh accepted by [validate_bounds] except
    full-circle ones (property C39), so the model keeps it rational.  [int(...)]
    truncates towards zero; all arguments are non-negative where it is used. *)
Definition initialise_map (i : Z) (grid_width : Q) (len : Z) : nmap :=
  (let qi := inject_Z i in
   let up := qltb (qi + grid_width) (inject_Z len) in      (* a row to the north *)
   let down := qleb 0 (qi - grid_width) in                  (* a row to the south *)
   let has_e := negb (qeqb (qmod (qi + 1) grid_width) 0) in
   let has_w := negb (qeqb (qmod qi grid_width) 0) in
   let opt (c : bool) (x : Z) := if c then [x] else [] in
   [ (KI north_east, opt (has_e && up) (Qfloor (qi + grid_width + 1)));
     (KI east,       opt has_e (i + 1)%Z);
     (KI south_east, opt (has_e && down) (Qfloor (qi - grid_width + 1)));
     (KI south,      opt down (Qfloor (qi - grid_width)));
     (KI south_west, opt (has_w && down) (Qfloor (qi - grid_width - 1)));
     (KI west,       opt has_w (i - 1)%Z);
     (KI north_west, opt (has_w && up) (Qfloor (qi + grid_width - 1)));
     (KI north,      opt up (Qfloor (qi + grid_width))) ])%Q.

(** 417-426 [initialise_neighbour_graph]; [cellboxes.index(cellbox)] compares
    CellBox objects by identity, so it is the position. *)
Definition initialise_neighbour_graph (len : nat) (grid_width : Q) : graph :=
  fold_left (fun g i => add_node g (KI (Z.of_nat i))
                          (initialise_map (Z.of_nat i) grid_width (Z.of_nat len)))
            (seq 0 len) [].
