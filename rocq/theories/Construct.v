(** Model of the construction of a data source: the last part of [__init__] and
    [calculate_coverage] of meshiphi/dataloaders/scalar/abstract_scalar.py and
    meshiphi/dataloaders/vector/abstract_vector.py.  No proofs here. *)
From Verif Require Import Base Geo Graph Cell Loaders Builder Env.
Open Scope Q_scope.

(** shapely's [.area] and the area of [.intersection], for polygons made of
    rectangular rings whose interiors are disjoint. *)
Definition rings (p : polygon) : list ring := match p with Poly r => [r] | MPoly rs => rs end.
Definition span (a0 a1 b0 b1 : Q) : Q := qmax 0 (qmin a1 b1 - qmax a0 b0).
Definition ring_overlap (r s : ring) : Q :=
  span (min_list (ring_xs r)) (max_list (ring_xs r)) (min_list (ring_xs s)) (max_list (ring_xs s)) *
  span (min_list (ring_ys r)) (max_list (ring_ys r)) (min_list (ring_ys s)) (max_list (ring_ys s)).
Definition ring_area (r : ring) : Q :=
  (max_list (ring_xs r) - min_list (ring_xs r)) * (max_list (ring_ys r) - min_list (ring_ys r)).
Definition polygon_area (p : polygon) : Q := qsum (map ring_area (rings p)).
Definition overlap_area (p q : polygon) : Q :=
  qsum (flat_map (fun r => map (ring_overlap r) (rings q)) (rings p)).

(** abstract_scalar.py 197-207 = 220-230 (abstract_vector.py 255-265, 278-288): the
    part of the bounds the data's extent covers. *)
Definition coverage_of (b : boundary) (lats longs : list Q) : res Q :=
  data_boundary <- Boundary [qmin_list lats; qmax_list lats] [qmin_list longs; qmax_list longs] [] ;;
  let total := polygon_area (to_polygon b) in
  if qeqb total 0 then Err ZeroDivisionError
  else Ok (overlap_area (to_polygon data_boundary) (to_polygon b) / total).

(** A row without NaN ([dropna()] keeps it). *)
Definition complete (p : point) : bool := negb (has_nan (p_vals p)).

(** abstract_scalar.py 182-208 [calculate_coverage_from_df] *)
Definition coverage_df (b : boundary) (d : data) : res Q :=
  match filter complete d with
  | [] => Ok 0
  | d' => coverage_of b (map p_lat d') (map p_long d')
  end.

(** abstract_scalar.py 211-230 [calculate_coverage_from_xr]: [dropna(dim, how="all")]
    drops the coordinates at which every value is NaN. *)
Definition x_some (ds : xrds) (la lo : Q * nat) : bool :=
  match x_time ds with
  | None => negb (all_nan (x_val ds (snd la) (snd lo) 0%nat))
  | Some ts => existsb (fun t => negb (all_nan (x_val ds (snd la) (snd lo) (snd t)))) ts
  end.
Definition coverage_xr (b : boundary) (ds : xrds) : res Q :=
  let lats := filter (fun la => existsb (x_some ds la) (x_long ds)) (x_lat ds) in
  let longs := filter (fun lo => existsb (fun la => x_some ds la lo) lats) (x_long ds) in
  match lats, longs with
  | [], _ | _, [] => Ok 0
  | _, _ => coverage_of b (map fst lats) (map fst longs)
  end.

(** abstract_scalar.py 76-95, abstract_vector.py 78-97: the end of [__init__]; [d] is
    the data imported, downsampled, reprojected and renamed. *)
Definition construct_df (b : boundary) (d : data) : res data :=
  coverage <- coverage_df b d ;;
  if qeqb coverage 0 then Ok d else Ok (df_trim b d).
Definition construct_xr (b : boundary) (ds : xrds) : res xrds :=
  coverage <- coverage_xr b ds ;;
  if qeqb coverage 0 then Ok ds else xr_trim b ds.
