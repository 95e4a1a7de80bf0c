(** Model of the synthetic data sources: meshiphi/dataloaders/scalar/shape.py and
    meshiphi/dataloaders/vector/vector_shape.py.  No proofs here. *)
From Verif Require Import Base Geo Cell Loaders.
Open Scope Z_scope.

(** [np.linspace(a, b, n, endpoint)]: n evenly spaced numbers from a, the last one
    b if [endpoint] is set; ValueError for negative n. *)
Definition linspace (endpoint : bool) (a b : Q) (n : Z) : res (list Q) :=
  if n <? 0 then Err ValueError
  else
    let div := if endpoint then n - 1 else n in
    Ok (map (fun i => (a + inject_Z (Z.of_nat i) * ((b - a) / inject_Z div))%Q) (seq 0 (Z.to_nat n))).

(** The parameters of a shape (the attributes set from the configuration).
    [centre] is (latitude, longitude), either may be None. *)
Record shape_params := mkShape {
  s_nx : Z; s_ny : Z;
  s_mult : list Q;                       (* multiplier, or multiplier_u and multiplier_v *)
  s_centre : option Q * option Q;
  s_radius : Q; s_width : Q; s_height : Q;
  s_vertical : bool;
  s_grid : Q * Q }.

(** [lat[int(n/2)] if not c else c]: None and 0 count as not given. *)
Definition centre_of (axis : list Q) (n : Z) (c : option Q) : res Q :=
  match c with
  | Some q => if qeqb q 0 then py_nth axis (n / 2) else Ok q
  | None => py_nth axis (n / 2)
  end.

(** The generated frame: one row for each pair of coordinates, row by row. *)
Record grid := mkGrid { g_lat : list Q; g_long : list Q; g_val : nat -> nat -> list (option Q) }.
Definition grid_rows (g : grid) : data :=
  flat_map (fun i => map (fun j => mkP (nth i (g_lat g) 0%Q) (nth j (g_long g) 0%Q) None (g_val g i j))
                         (seq 0 (List.length (g_long g))))
           (seq 0 (List.length (g_lat g))).

(** [mask.astype(int) * multiplier] *)
Definition mask_value (b : bool) (m : Q) : option Q := Some (if b then m else 0)%Q.

(** [np.sqrt(d2) <= r] *)
Definition within (d2 r : Q) : bool := qleb 0 r && qleb d2 (r * r).

(** shape.py 96-143 [gen_circle] (vector_shape.py 150-203, with one multiplier for
    each component).  [np.vstack] of no rows raises ValueError. *)
Definition gen_circle (p : shape_params) (b : boundary) : res grid :=
  lat <- linspace true (lat_min b) (lat_max b) (s_ny p) ;;
  long <- linspace true (long_min b) (long_max b) (s_nx p) ;;
  cy <- centre_of lat (s_ny p) (fst (s_centre p)) ;;
  cx <- centre_of long (s_nx p) (snd (s_centre p)) ;;
  if s_ny p =? 0 then Err ValueError
  else Ok (mkGrid lat long (fun i j =>
         let x := nth j long 0%Q in
         let y := nth i lat 0%Q in
         map (mask_value (within ((x - cx) * (x - cx) + (y - cy) * (y - cy))%Q (s_radius p))) (s_mult p))).

(** shape.py 234-291 [gen_rectangle] (vector_shape.py 205-260). *)
Definition gen_rectangle (p : shape_params) (b : boundary) : res grid :=
  lat <- linspace true (lat_min b) (lat_max b) (s_ny p) ;;
  long <- linspace true (long_min b) (long_max b) (s_nx p) ;;
  cy <- centre_of lat (s_ny p) (fst (s_centre p)) ;;
  cx <- centre_of long (s_nx p) (snd (s_centre p)) ;;
  if s_ny p =? 0 then Err ValueError
  else Ok (mkGrid lat long (fun i j =>
         let x := nth j long 0%Q in
         let y := nth i lat 0%Q in
         map (mask_value (qleb (qabs (x - cx)) (s_width p) && qleb (qabs (y - cy)) (s_height p))) (s_mult p))).

(** shape.py 145-185 [gen_gradient]. *)
Definition gen_gradient (p : shape_params) (b : boundary) : res grid :=
  lat <- linspace true (lat_min b) (lat_max b) (s_ny p) ;;
  long <- linspace true (long_min b) (long_max b) (s_nx p) ;;
  gradient <- linspace true 0 1 (if s_vertical p then s_ny p else s_nx p) ;;
  Ok (mkGrid lat long (fun i j =>
      map (fun m => Some (nth (if s_vertical p then i else j) gradient 0 * m)%Q) (s_mult p))).

(** vector_shape.py 93-148 [gen_gradient]: a vertical gradient goes into the second
    component, a horizontal one into the first; the other one is 0. *)
Definition gen_vector_gradient (p : shape_params) (b : boundary) : res grid :=
  lat <- linspace true (lat_min b) (lat_max b) (s_ny p) ;;
  long <- linspace true (long_min b) (long_max b) (s_nx p) ;;
  gradient <- linspace true 0 1 (if s_vertical p then s_ny p else s_nx p) ;;
  Ok (mkGrid lat long (fun i j =>
      let datum := nth (if s_vertical p then i else j) gradient 0%Q in
      let uv := if s_vertical p then [0%Q; datum] else [datum; 0%Q] in
      map (fun vm => Some (fst vm * snd vm)%Q) (combine uv (s_mult p)))).

(** [np.floor((v - v0) / size) % 2]; a grid size of 0 gives NaN. *)
Definition stripe (v v0 size : Q) : option Z :=
  if qeqb size 0 then None else Some (Qfloor ((v - v0) / size) mod 2).

(** shape.py 187-232 [gen_checkerboard]: [gridsize] is (longitude, latitude). *)
Definition gen_checkerboard (p : shape_params) (b : boundary) : res grid :=
  lat <- linspace false (lat_min b) (lat_max b) (s_ny p) ;;
  long <- linspace false (long_min b) (long_max b) (s_nx p) ;;
  Ok (mkGrid lat long (fun i j =>
      let h := stripe (nth i lat 0%Q) (lat_min b) (snd (s_grid p)) in
      let v := stripe (nth j long 0%Q) (long_min b) (fst (s_grid p)) in
      [match h, v with
       | Some h, Some v => Some (inject_Z ((h + v) mod 2))
       | _, _ => None
       end])).

(** The order in which pandas lists the levels of an index: ascending. *)
Fixpoint insert_axis (x : Q * nat) (l : list (Q * nat)) : list (Q * nat) :=
  match l with
  | [] => [x]
  | y :: l' => if qleb (fst x) (fst y) then x :: y :: l' else y :: insert_axis x l'
  end.
Definition sort_axis (l : list (Q * nat)) : list (Q * nat) := fold_right insert_axis [] l.
Fixpoint has_dup (l : list Q) : bool :=
  match l with
  | [] => false
  | x :: l' => existsb (qeqb x) l' || has_dup l'
  end.

(** shape.py 91 [data.set_index(['lat', 'long']).to_xarray()] for a frame with one
    row for each pair of coordinates: the axes in ascending order; ValueError if a
    pair of coordinates occurs twice. *)
Definition to_xarray (g : grid) : res xrds :=
  if negb (Nat.eqb (List.length (g_lat g)) 0) && negb (Nat.eqb (List.length (g_long g)) 0) &&
     (has_dup (g_lat g) || has_dup (g_long g)) then Err ValueError
  else
    let empty := Nat.eqb (List.length (g_lat g)) 0 || Nat.eqb (List.length (g_long g)) 0 in
    let axis l := if empty then [] else sort_axis (combine l (seq 0 (List.length l))) in
    Ok (mkXr (axis (g_lat g)) (axis (g_long g)) None (fun i j _ => g_val g i j)).

(** shape.py 63-94 and vector_shape.py 60-91 [import_data]; [generate] is selected by
    the name of the loader. *)
Definition import_shape (generate : shape_params -> boundary -> res grid) (p : shape_params) (b : boundary) : res xrds :=
  g <- generate p b ;; to_xarray g.
Definition shape_generator (name : string) : res (shape_params -> boundary -> res grid) :=
  if String.eqb name "circle" then Ok gen_circle
  else if String.eqb name "checkerboard" then Ok gen_checkerboard
  else if String.eqb name "gradient" then Ok gen_gradient
  else if String.eqb name "rectangle" then Ok gen_rectangle
  else Err ValueError.
Definition vector_shape_generator (name : string) : res (shape_params -> boundary -> res grid) :=
  if String.eqb name "vector_circle" then Ok gen_circle
  else if String.eqb name "vector_gradient" then Ok gen_vector_gradient
  else if String.eqb name "vector_rectangle" then Ok gen_rectangle
  else Err ValueError.
