(** The geometry of Geo.v, Graph.v, Cell.v and Builder.v as the code computes it, in
    double precision.  No proofs here.

    Integers in a configuration are taken as the doubles of the same value (Python
    compares and adds the two kinds exactly as long as they are below 2^53). *)
From Coq Require Import Floats.SpecFloat Qround.
From Verif Require Import Base Floats Graph.
Open Scope Z_scope.

(** C's fmod, which is exact. *)
Definition fmod (x y : f64) : f64 :=
  match x, y with
  | S754_finite sx mx ex, S754_finite _ my ey =>
      let e := Z.min ex ey in
      let r := (Zpos mx * 2 ^ (ex - e)) mod (Zpos my * 2 ^ (ey - e)) in
      if r =? 0 then S754_zero sx else fnum (cond_Zopp sx r) e
  | S754_zero s, S754_finite _ _ _ => x
  | S754_zero _, S754_infinity _ | S754_finite _ _ _, S754_infinity _ => x
  | _, _ => S754_nan
  end.
(** Python's and numpy's float [x % y] for y <> 0. *)
Definition py_mod (x y : f64) : f64 :=
  let m := fmod x y in
  if feq m (fint 0) then S754_zero (flt y (fint 0))
  else if Bool.eqb (flt y (fint 0)) (flt m (fint 0)) then m else fadd m y.

(** utils.py 15-29 [longitude_domain] *)
Definition f_domain (x : f64) : f64 :=
  if feq x (fint (-180)) || feq x (fint 180) then x
  else fsub (py_mod (fadd x (fint 180)) (fint 360)) (fint 180).

(** boundary.py 104-123, 182-202; times are treated in Dates.v. *)
Record fboundary := mkF { flat_min : f64; flat_max : f64; flong_min : f64; flong_max : f64 }.
Definition FBoundary (la lb oa ob : f64) : res fboundary :=
  if flt lb la then Err ValueError
  else if flt oa (fint (-180)) || flt (fint 180) ob then Err ValueError
  else Ok (mkF la lb oa ob).
(** boundary.py 228-237, 238-251 *)
Definition f_height (b : fboundary) : f64 := fsub (flat_max b) (flat_min b).
Definition f_width (b : fboundary) : f64 :=
  if flt (flong_min b) (flong_max b) then fsub (flong_max b) (flong_min b)
  else fadd (fsub (fint 180) (flong_min b)) (fadd (flong_max b) (fint 180)).

(** cellbox.py 265-304 [create_splitted_cell_boxes] *)
Definition f_split (b : fboundary) : res (list fboundary) :=
  let half_width := fdiv (f_width b) (fint 2) in
  let half_height := fdiv (f_height b) (fint 2) in
  let lat := flat_min b in
  let long := flong_min b in
  nw <- FBoundary (fadd lat half_height) (fadd lat (f_height b)) long (f_domain (fadd long half_width)) ;;
  ne <- FBoundary (fadd lat half_height) (fadd lat (f_height b)) (f_domain (fadd long half_width)) (f_domain (fadd long (f_width b))) ;;
  sw <- FBoundary lat (fadd lat half_height) long (f_domain (fadd long half_width)) ;;
  se <- FBoundary lat (fadd lat half_height) (f_domain (fadd long half_width)) (f_domain (fadd long (f_width b))) ;;
  Ok [nw; ne; sw; se].

(** numpy [np.arange(a, b, s)] on doubles: the first two values are a and a + s, the
    others a + i * ((a + s) - a). *)
Definition f_arange (a b s : f64) : list f64 :=
  let next := fadd a s in
  let delta := fsub next a in
  let n := match fval (fdiv (fsub b a) s) with Some q => Z.to_nat (Qceiling q) | None => 0%nat end in
  map (fun i => match i with 0%nat => a | 1%nat => next | _ => fadd a (fmul (fint (Z.of_nat i)) delta) end) (seq 0 n).

(** mesh_builder.py 319-326 [validate_bounds] *)
Definition f_validate (b : fboundary) (cell_width cell_height : f64) : res unit :=
  if feq cell_width (fint 0) || feq cell_height (fint 0) then Err ZeroDivisionError
  else if negb (feq (py_mod (py_mod (fsub (flong_max b) (flong_min b)) (fint 360)) cell_width) (fint 0)) then Err AssertionError
  else if negb (feq (py_mod (fsub (flat_max b) (flat_min b)) cell_height) (fint 0)) then Err AssertionError
  else Ok tt.
(** mesh_builder.py 238-272 [initialize_cellboxes] *)
Definition f_columns (b : fboundary) (cell_width : f64) : list f64 :=
  map f_domain
    (if flt (flong_min b) (flong_max b) then f_arange (flong_min b) (flong_max b) cell_width
     else f_arange (flong_min b) (fadd (flong_max b) (fint 360)) cell_width).
Definition f_cell (cell_width cell_height lat long : f64) : res fboundary :=
  if fle (fadd long cell_width) (fint 180) then FBoundary lat (fadd lat cell_height) long (fadd long cell_width)
  else FBoundary lat (fadd lat cell_height) long (fsub (fadd long cell_width) (fint 360)).
Definition f_grid (b : fboundary) (cell_width cell_height : f64) : res (list fboundary) :=
  mapM (fun ll => f_cell cell_width cell_height (fst ll) (snd ll))
       (list_prod (f_arange (flat_min b) (flat_max b) cell_height) (f_columns b cell_width)).

(** neighbour_graph.py 317-352 / 206-270 *)
Definition f_case_bounds (a b : fboundary) : Z :=
  let long_a := flong_min a in let lat_a := flat_min a in
  let long_b := flong_min b in let lat_b := flat_min b in
  let ea := fadd long_a (f_width a) in let na := fadd lat_a (f_height a) in
  let eb := fadd long_b (f_width b) in let nb := fadd lat_b (f_height b) in
  if feq ea long_b && feq na lat_b then north_east
  else if feq ea long_b && flt lat_b na && flt lat_a nb then east
  else if feq ea long_b && feq lat_a nb then south_east
  else if feq nb lat_a && flt long_a eb && flt long_b ea then south
  else if feq long_a eb && feq lat_a nb then south_west
  else if feq eb long_a && flt lat_b na && flt lat_a nb then west
  else if feq long_a eb && feq na lat_b then north_west
  else if feq lat_b na && flt long_a eb && flt long_b ea then north
  else 0.
(** neighbour_graph.py 354-409 *)
Definition f_case_global (a b : fboundary) : Z :=
  let long_a := flong_min a in let lat_a := flat_min a in
  let long_b := flong_min b in let lat_b := flat_min b in
  let ea := fadd long_a (f_width a) in let na := fadd lat_a (f_height a) in
  let eb := fadd long_b (f_width b) in let nb := fadd lat_b (f_height b) in
  if feq ea (fabs long_b) && feq na lat_b then north_east
  else if feq ea (fabs long_b) && flt lat_b na && flt lat_a nb then east
  else if feq ea (fabs long_b) && feq lat_a nb then south_east
  else if feq nb lat_a && flt long_a eb && flt long_b ea then south
  else if feq (fabs long_a) eb && feq lat_a nb then south_west
  else if feq eb (fabs long_a) && flt lat_b na && flt lat_a nb then west
  else if feq (fabs long_a) eb && feq na lat_b then north_west
  else if feq lat_b na && flt long_a eb && flt long_b ea then north
  else 0.
(** neighbour_graph.py 301-313, 272-352 *)
Definition f_on_bound (a b : fboundary) : bool :=
  (feq (flong_min a) (fint (-180)) && feq (flong_max b) (fint 180)) ||
  (feq (flong_min b) (fint (-180)) && feq (flong_max a) (fint 180)).
Definition f_case (glob : bool) (a b : fboundary) : Z :=
  if glob && f_on_bound a b then f_case_global a b else f_case_bounds a b.
