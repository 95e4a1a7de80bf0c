(** Model of [downsample]: abstract_scalar.py 723-812, the same text in
    abstract_vector.py 723-812.  No proofs here. *)
From Verif Require Import Base Geo Cell Loaders.
Open Scope Q_scope.

(** A reduction of xarray that skips NaN, and is NaN if nothing is left. *)
Definition nan_agg (f : list Q -> Q) (l : list (option Q)) : option Q :=
  match drop_nan l with [] => None | vs => Some (f vs) end.
(** The same for each data variable. *)
Definition agg_cols (f : list Q -> Q) (ls : list (list (option Q))) : list (option Q) :=
  map (fun v => nan_agg f (map (fun l => nth v l None) ls)) (seq 0 (list_max (map (@List.length _) ls))).

(** The windows of [coarsen(dim=n, boundary='pad')]: the axis padded at its end to a
    multiple of [n] and cut into pieces of [n]; the padding is NaN, which the reductions
    skip. *)
Definition chunks {A} (n : nat) (l : list A) : list (list A) :=
  map (fun i => firstn n (skipn (i * n) l)) (seq 0 (Nat.div (List.length l + n - 1) n)).
Definition coarse_axis (cs : list (list (Q * nat))) : list (Q * nat) :=
  combine (map (fun c => qmean (map fst c)) cs) (seq 0 (List.length cs)).
(** [data.coarsen(lat=n, boundary='pad').f()]; coordinates are averaged
    (coord_func='mean'); windows that are not positive raise ValueError. *)
Definition coarsen_lat (f : list Q -> Q) (n : Z) (ds : xrds) : res xrds :=
  if (n <=? 0)%Z then Err ValueError
  else let cs := chunks (Z.to_nat n) (x_lat ds) in
       Ok (mkXr (coarse_axis cs) (x_long ds) (x_time ds)
                (fun i j t => agg_cols f (map (fun la => x_val ds (snd la) j t) (nth i cs [])))).
Definition coarsen_long (f : list Q -> Q) (n : Z) (ds : xrds) : res xrds :=
  if (n <=? 0)%Z then Err ValueError
  else let cs := chunks (Z.to_nat n) (x_long ds) in
       Ok (mkXr (x_lat ds) (coarse_axis cs) (x_time ds)
                (fun i j t => agg_cols f (map (fun lo => x_val ds i (snd lo) t) (nth j cs [])))).
(** [data.thin(dim=n)]: every n-th entry, for positive n. *)
Definition thinned {A} (n : nat) (l : list A) : list A := flat_map (firstn 1) (chunks n l).
Definition thin_lat (n : Z) (ds : xrds) : res xrds :=
  if (n <=? 0)%Z then Err ValueError else Ok (mkXr (thinned (Z.to_nat n) (x_lat ds)) (x_long ds) (x_time ds) (x_val ds)).
Definition thin_long (n : Z) (ds : xrds) : res xrds :=
  if (n <=? 0)%Z then Err ValueError else Ok (mkXr (x_lat ds) (thinned (Z.to_nat n) (x_long ds)) (x_time ds) (x_val ds)).

(** 739-783 [downsample_xr]; [ds] is (longitude factor, latitude factor) *)
Definition downsample_xr (sqrt : Q -> Q) (agg_type : string) (ds : Z * Z) (d : xrds) : res xrds :=
  let coarsen f := d <- coarsen_lat f (snd ds) d ;; coarsen_long f (fst ds) d in
  if String.eqb agg_type "MIN" then coarsen qmin_list
  else if String.eqb agg_type "MAX" then coarsen qmax_list
  else if String.eqb agg_type "MEAN" then coarsen qmean
  else if String.eqb agg_type "MEDIAN" then coarsen qmedian
  else if String.eqb agg_type "STD" then coarsen (fun l => sqrt (sq_dev l / qlen l))
  else if String.eqb agg_type "COUNT" then d <- thin_lat (snd ds) d ;; thin_long (fst ds) d
  else Ok d.
(** 797-812 *)
Definition downsample (sqrt : Q -> Q) (agg_type : string) (ds : Z * Z) (d : xrds) : res xrds :=
  if (fst ds =? 1)%Z && (snd ds =? 1)%Z then Ok d else downsample_xr sqrt agg_type ds d.
(** 785-795 [downsample_df] *)
Definition downsample_df (agg_type : string) (ds : Z * Z) (d : data) : data := d.
