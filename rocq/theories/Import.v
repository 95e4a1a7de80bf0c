(** Model of the import of data files, after they are opened: [import_data] of
    scalar/era5_*.py, bsose_depth.py, bsose_sea_ice.py, baltic_sea_ice.py, gebco.py,
    modis.py, scalar_csv.py and vector/era5_wind.py, era5_wave_direction_vector.py,
    baltic_current.py, duacs_current.py, north_sea_current.py, sose.py, vector_csv.py.
    No proofs here.

    The file is the Dataset xarray makes of it, or the frame of a csv file; renaming is
    not modelled (Names.v). *)
From Verif Require Import Base Geo Cell Loaders Config Params Shapes Downsample.
Open Scope Q_scope.

Definition map_vals (f : list (option Q) -> list (option Q)) (ds : xrds) : xrds :=
  mkXr (x_lat ds) (x_long ds) (x_time ds) (fun i j t => f (x_val ds i j t)).
(** [data.assign_coords(long=((data.long + 180) % 360) - 180)] *)
Definition wrap_long (x : Q) : Q := qmod (x + 180) 360 - 180.
Definition assign_long (ds : xrds) : xrds :=
  mkXr (x_lat ds) (map (fun x => (wrap_long (fst x), snd x)) (x_long ds)) (x_time ds) (x_val ds).
(** [data.sortby('long')]: a stable sort. *)
Definition sortby_long (ds : xrds) : xrds := mkXr (x_lat ds) (sort_axis (x_long ds)) (x_time ds) (x_val ds).
(** [data.reindex(lat=data.lat[::-1])]: an index with repeated labels raises ValueError. *)
Definition reverse_lat (ds : xrds) : res xrds :=
  if has_dup (map fst (x_lat ds)) then Err ValueError else Ok (mkXr (rev (x_lat ds)) (x_long ds) (x_time ds) (x_val ds)).

(** era5_sig_wave_height.py 35-46, era5_max_wave_height.py 35-46, era5_wave_period.py
    34-45, era5_mean_wave_direction.py 33-44, era5_wind_dir.py 35-50, era5_wind_mag.py
    35-50, era5_wave_direction_vector.py 42-67; [f] is the choice of the variable, or its
    calculation from others. *)
Definition import_era5 (f : list (option Q) -> list (option Q)) (b : boundary) (ds : xrds) : res xrds :=
  ds <- reverse_lat (map_vals f (sortby_long (assign_long ds))) ;; xr_trim b ds.
(** era5_wind_mag.py 42 *)
Definition wind_mag (sqrt : Q -> Q) (l : list (option Q)) : list (option Q) :=
  match l with [Some u; Some v] => [Some (sqrt (u * u + v * v))] | _ => [None] end.
(** era5_wind.py 38-49 and baltic_sea_ice.py 26-33: longitudes are left as they are. *)
Definition import_reversed (b : boundary) (ds : xrds) : res xrds := ds <- reverse_lat ds ;; xr_trim b ds.
(** gebco.py 20-28, duacs_current.py 39-49, north_sea_current.py 27-36 *)
Definition import_plain (b : boundary) (ds : xrds) : res xrds := xr_trim b ds.
(** bsose_depth.py 26-40 *)
Definition negated (l : list (option Q)) : list (option Q) := map (option_map (fun x => -1 * x)) l.
Definition import_bsose_depth (b : boundary) (ds : xrds) : res xrds := xr_trim b (map_vals negated (sortby_long (assign_long ds))).
(** bsose_sea_ice.py 34-57 *)
Definition percent (l : list (option Q)) : list (option Q) := map (option_map (fun x => x * 100)) l.
Definition import_bsose_ice (units : option string) (b : boundary) (ds : xrds) : res xrds :=
  ds <- xr_trim b (sortby_long (assign_long ds)) ;;
  match units with
  | None => Ok (map_vals percent ds)
  | Some u => if String.eqb u "percentage" then Ok (map_vals percent ds)
              else if String.eqb u "fraction" then Ok ds else Err ValueError
  end.
(** baltic_current.py 24-42, for the first depth; the mean over the times left skips NaN;
    without a time axis [mean(dim="time")] raises ValueError. *)
Definition time_mean (n : nat) (ds : xrds) : res xrds :=
  match x_time ds with
  | None => Err ValueError
  | Some ts => Ok (mkXr (x_lat ds) (x_long ds) None
      (fun i j _ => map (fun v => nan_agg qmean (map (fun t => nth v (x_val ds i j (snd t)) None) ts)) (seq 0 n)))
  end.
Definition import_baltic_current (b : boundary) (ds : xrds) : res xrds := ds <- xr_trim b ds ;; time_mean 2 ds.
(** sose.py 22-34: the time is not kept. *)
Definition sose_long (x : Q) : Q := if qltb 180 x then x - 360 else x.
Definition import_sose (b : boundary) (d : data) : data :=
  df_trim b (map (fun p => mkP (p_lat p) (sose_long (p_long p)) None (p_vals p)) d).
(** scalar_csv.py 18-28, vector_csv.py 18-28; [pd.concat([])] raises ValueError. *)
Definition import_csv (b : boundary) (files : list data) : res data :=
  match files with [] => Err ValueError | _ => Ok (df_trim b (List.concat files)) end.
(** modis.py 20-33: [self.file] is set if and only if there is such a parameter.
    [where(cloud != 1, drop=True)] makes all values NaN where the last one, cloud, is 1,
    and drops the latitudes and longitudes where it is 1 everywhere. *)
Definition clear (l : list (option Q)) : bool := match rev l with Some c :: _ => negb (qeqb c 1) | _ => true end.
Definition x_any (ds : xrds) (i j : nat) : bool :=
  match x_time ds with None => clear (x_val ds i j 0%nat) | Some ts => existsb (fun t => clear (x_val ds i j (snd t))) ts end.
Definition where_clear (ds : xrds) : xrds :=
  mkXr (filter (fun la => existsb (fun lo => x_any ds (snd la) (snd lo)) (x_long ds)) (x_lat ds))
       (filter (fun lo => existsb (fun la => x_any ds (snd la) (snd lo)) (x_lat ds)) (x_long ds))
       (option_map (filter (fun t => existsb (fun la => existsb (fun lo => clear (x_val ds (snd la) (snd lo) (snd t))) (x_long ds)) (x_lat ds))) (x_time ds))
       (fun i j t => let l := x_val ds i j t in if clear l then l else map (fun _ => None) l).
Definition import_modis (p : params) (b : boundary) (ds : xrds) : res xrds :=
  if given p "file" then xr_trim b (where_clear ds) else Err AttributeError.
