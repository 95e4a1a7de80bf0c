(** Model of the import of forecasts: scalar/icenet.py 47-104, scalar/
    ecmwf_sig_wave_height.py 44-97 and vector/oras5_current.py 24-39, with the end of
    [__init__] (Construct.v).  The choice of the files is that of Files.v.  No proofs here. *)
From Verif Require Import Base Geo Graph Cell Loaders Builder Env Construct Downsample Import Dates PyStr Files.
Open Scope Q_scope.

(** ** IceNet *)
(** An opened file: the days of its forecasts, the number of lead times (1 to [i_leads]),
    the latitude and longitude of its grid cells, and the sea ice concentration by day of
    the forecast, lead time and cell. *)
Record icenet_ds := mkIce { i_runs : list Z; i_leads : Z; i_cells : list (Q * Q); i_sic : Z -> Z -> nat -> option Q }.
(** icenet.py 89-96: one row per lead time and cell; the time is that of the prediction. *)
Definition icenet_rows (ds : icenet_ds) (run : Z) (leads : list Z) : data :=
  flat_map (fun l => map (fun c => mkP (fst (snd c)) (snd (snd c)) (Some (run + l)%Z) [i_sic ds run l (fst c)])
                         (combine (seq 0 (List.length (i_cells ds))) (i_cells ds))) leads.
(** icenet.py 35-104 *)
Definition import_icenet (open : string -> icenet_ds) (b : boundary) (t0 t1 : Z) (files : list string) : res data :=
  cf <- icenet_file t0 files ;;
  let ds := open (snd cf) in
  rl <- icenet_leads t0 t1 (fst cf) (i_runs ds) (i_leads ds) ;;
  Ok (map (fun p => mkP (p_lat p) (p_long p) (p_time p) (map (option_map (fun x => x * 100)) (p_vals p)))
          (df_trim b (icenet_rows ds (fst rl) (snd rl)))).
Definition load_icenet (open : string -> icenet_ds) (b : boundary) (t0 t1 : Z) (files : list string) : res data :=
  d <- import_icenet open b t0 t1 files ;; construct_df b d.

(** ** ECMWF wave heights *)
(** Times are hours.  ecmwf_sig_wave_height.py 84-97: the files in the order of the list,
    all on the grid of the first. *)
Definition stack (open : string -> xrds) (fs : list string) : xrds :=
  let hours := map (fun f => match made_for f with Some h => h | None => 0%Z end) fs in
  let first := open (hd ""%string fs) in
  mkXr (x_lat first) (x_long first) (Some (combine hours (seq 0 (List.length fs)))) (fun i j k => x_val (open (nth k fs ""%string)) i j 0%nat).
Definition import_ecmwf (open : string -> xrds) (t0 t1 : Z) (files : list string) : res xrds :=
  fs <- ecmwf t0 t1 files ;; reverse_lat (stack open fs).
(** [data.sel(time=slice('YYYY-MM-DD', 'YYYY-MM-DD'))]: all hours of the days.  If the
    times are not in increasing order, pandas ([strict]: version 2 or later) raises
    KeyError, since the last nanosecond of a day is no time of the data; before it gives a
    mask, which xarray rejects with KeyError unless all times are selected. *)
Definition sel_hours {I} (strict : bool) (t0 t1 : Z) (ts : list (Z * I)) : res (list (Z * I)) :=
  let keep x := ((24 * t0 <=? fst x) && (fst x <? 24 * (t1 + 1)))%Z in
  if monotone Z.leb (map fst ts) then Ok (filter keep ts)
  else if strict then Err KeyError
  else if forallb keep ts then Ok ts else Err KeyError.
(** abstract_scalar.py 302-323 with times in hours *)
Definition trim_hours (strict : bool) (b : boundary) (ds : xrds) : res xrds :=
  match x_time ds with
  | None => xr_trim b ds
  | Some ts =>
      tr <- xr_trim b (mkXr (x_lat ds) (x_long ds) None (x_val ds)) ;;
      match time_range b with
      | t0 :: t1 :: _ => ts' <- sel_hours strict t0 t1 ts ;; Ok (mkXr (x_lat tr) (x_long tr) (Some ts') (x_val ds))
      | _ => Err IndexError
      end
  end.
Definition load_ecmwf (strict : bool) (open : string -> xrds) (b : boundary) (t0 t1 : Z) (files : list string) : res xrds :=
  ds <- import_ecmwf open t0 t1 files ;;
  coverage <- coverage_xr b ds ;;
  if qeqb coverage 0 then Ok ds else trim_hours strict b ds.

(** ** ORAS5 currents: oras5_current.py 24-39 *)
(** The latitudes and longitudes of a file are axes, or depend on both dimensions of the
    grid; then there is no index for them and [sel] raises KeyError. *)
Inductive oras5_file := OnAxes (ds : xrds) | OnGrid.
Definition import_oras5 (b : boundary) (f : oras5_file) : res xrds :=
  match f with OnAxes ds => xr_trim b ds | OnGrid => Err KeyError end.
