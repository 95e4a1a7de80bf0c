(** Model of the random fields: utils.py 177-236, scalar/scalar_grf.py 64-138 and
    vector/vector_grf.py 50-106.  No proofs here.

    The noise is any array (its values in row-major order); the Fourier transform is not
    modelled.  A NaN appears in all places at once, as 0/0: [None] is the array of NaN. *)
From Verif Require Import Base Geo Cell Loaders Shapes.
Open Scope Q_scope.

(** utils.py 178-197 [fftind], one axis: [mgrid - int((size + 1) / 2)], then
    [np.fft.fftshift], which moves every entry [size // 2] places on. *)
Definition fftind (size : Z) : list Z :=
  map (fun i => ((Z.of_nat i - size / 2) mod size - (size + 1) / 2)%Z) (seq 0 (Z.to_nat size)).

(** utils.py 233-234 and scalar_grf.py 100-101 *)
Definition normalise (l : list Q) : option (list Q) :=
  let l := map (fun x => x - qmin_list l) l in
  let span := qmax_list l - qmin_list l in
  if qeqb span 0 then None else Some (map (fun x => x / span) l).
(** utils.py 199-236 *)
Definition random_field (noise : list Q) : option (list Q) := normalise noise.

(** scalar_grf.py 84-93; [grf == True] holds of 1; NaN is neither above nor below. *)
Definition grf_to_binary (threshold : Q) (size : nat) (g : option (list Q)) : list (option Q) :=
  match g with
  | None => repeat (Some 0) size
  | Some l =>
      let l := map (fun x => if qleb threshold x then 1 else x) l in
      let l := map (fun x => if qltb x threshold then 0 else x) l in
      map (fun x => Some (if qeqb x 1 then 1 else 0)) l
  end.
(** scalar_grf.py 95-105 *)
Definition clip (t0 t1 : Q) (l : list Q) : list Q :=
  let l := map (fun x => if qltb x t0 then t0 else x) l in
  map (fun x => if qleb t1 x then t1 else x) l.
Definition grf_to_scalar (t0 t1 lo hi : Q) (g : option (list Q)) : option (list Q) :=
  match g with
  | None => None
  | Some l => option_map (map (fun x => x * (hi - lo) + lo)) (normalise (clip t0 t1 l))
  end.
Record grf_params := mkGrf {
  r_size : Z; r_binary : bool;
  r_t0 : Q; r_t1 : Q;                   (* thresholds; a binary field has the first only *)
  r_min : Q; r_max : Q; r_mult : Q; r_offset : Q }.
Definition grf_values (p : grf_params) (noise : list Q) : list (option Q) :=
  let g := random_field noise in
  if r_binary p then grf_to_binary (r_t0 p) (List.length noise) g
  else match grf_to_scalar (r_t0 p) (r_t1 p) (r_min p) (r_max p) g with
       | None => repeat None (List.length noise)
       | Some l => map (fun x => Some (r_mult p * x + r_offset p)) l
       end.

(** vector_grf.py 69-86; [cos] and [sin] take the angle as a fraction of a turn. *)
Definition grf_vector (cos sin : Q -> Q) (p : grf_params) (noise turns : list Q) : list (list (option Q)) :=
  match random_field noise, random_field turns with
  | Some ms, Some ds =>
      map (fun md => let m := fst md * (r_max p - r_min p) + r_min p in [Some (sin (snd md) * m); Some (cos (snd md) * m)]) (combine ms ds)
  | _, _ => repeat [None; None] (List.length noise)
  end.

(** scalar_grf.py 120-138, vector_grf.py 88-106: the grid of the data; no points raise
    ValueError (in the Fourier transform). *)
Definition grf_grid (size : Z) (vals : list (list (option Q))) (b : boundary) : res grid :=
  if (size <=? 0)%Z then Err ValueError
  else
    lat <- linspace true (lat_min b) (lat_max b) size ;;
    long <- linspace true (long_min b) (long_max b) size ;;
    Ok (mkGrid lat long (fun i j => nth (i * Z.to_nat size + j) vals [])).
Definition import_scalar_grf (p : grf_params) (noise : list Q) (b : boundary) : res xrds :=
  g <- grf_grid (r_size p) (map (fun v => [v]) (grf_values p noise)) b ;; to_xarray g.
Definition import_vector_grf (cos sin : Q -> Q) (p : grf_params) (noise turns : list Q) (b : boundary) : res xrds :=
  g <- grf_grid (r_size p) (grf_vector cos sin p noise turns) b ;; to_xarray g.
