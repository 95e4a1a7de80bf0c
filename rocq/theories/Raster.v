(** Model of EnvironmentMesh.to_tif (environment_mesh.py 1199-1421) up to the
    array handed to GDAL and its geo-transform.  No proofs here.

    Not modelled: GDAL itself, the reprojection, the colouring, rounding to
    float32. *)
From Coq Require Import Qround.
From Verif Require Import Base Geo Graph Cell Builder Env Config.
Open Scope Z_scope.

(** [np.arange(start, stop, step)]: ceil((stop - start) / step) values. *)
Definition zrange (n : Z) : list Z := map Z.of_nat (seq 0 (Z.to_nat n)).
Definition arange (start stop step : Q) : res (list Q) :=
  if qeqb step 0 then Err ZeroDivisionError
  else Ok (map (fun i => start + inject_Z i * step)%Q (zrange (Qceiling ((stop - start) / step)))).

(** 1225-1247 [generate_samples]: latitude and longitude of each sample *)
Definition pixel_height (b : boundary) (ncols : Z) : Q := ((lat_max b - lat_min b) / inject_Z ncols)%Q.
Definition pixel_width (b : boundary) (nlines : Z) : Q := ((long_max b - long_min b) / inject_Z nlines)%Q.
Definition generate_samples (b : boundary) (nlines ncols : Z) : res (list (Q * Q)) :=
  if (ncols =? 0) || (nlines =? 0) then Err ZeroDivisionError else
  let ph := pixel_height b ncols in
  let pw := pixel_width b nlines in
  lats <- arange (lat_max b) (lat_min b) (-1 * ph) ;;
  rows <- mapM (fun lat =>
            longs <- arange (long_min b) (long_max b) pw ;;
            Ok (map (fun long => (lat - (1#2) * ph, long + (1#2) * pw)%Q) longs)) lats ;;
  let samples := List.concat rows in
  if Z.of_nat (List.length samples) =? nlines * ncols then Ok samples else Err ValueError.

(** 1249-1277 [get_sample_value]; a text value is a Sequence, and np.mean of a
    text raises TypeError *)
Definition get_sample_value (cs : list ecell) (data_name : string) (s : Q * Q) : res (option Q) :=
  match find (fun c => contains_point c (fst s) (snd s)) cs with
  | None => Ok None
  | Some c =>
      match sget (e_data c) data_name with
      | None => Ok None
      | Some (JNum v) => Ok v
      | Some _ => Err TypeError
      end
  end.

(** [np.reshape(values, (nlines, ncols))] *)
Definition reshape {A} (l : list A) (nlines ncols : nat) : list (list A) :=
  map (fun r => firstn ncols (skipn (r * ncols) l)) (seq 0 nlines).

(** 1279-1294 [get_geo_transform] *)
Definition get_geo_transform (extent : Q * Q * Q * Q) (nlines ncols : Z) : list Q :=
  let '(w, s, e, n) := extent in
  let resx := ((e - w) / inject_Z ncols)%Q in
  let resy := ((n - s) / inject_Z nlines)%Q in
  [w; resx; 0%Q; n; 0%Q; (- resy)%Q].

(** 1296-1322 [load_params]: [None] is no file; the file holds null or an object *)
Definition default_params : sdict json :=
  [("data_name", JStr "SIC"); ("sampling_resolution", JArr [JInt 100; JInt 100]); ("projection", JStr "4326")]%string.
Definition take_param (input : sdict json) (name : string) (params : sdict json) : sdict json :=
  match sget input name with Some v => sset params name v | None => params end.
Definition load_params (file : option (option (sdict json))) : sdict json :=
  match file with
  | Some (Some input) =>
      take_param input "colour_conf" (take_param input "sampling_resolution"
        (take_param input "data_name" (take_param input "projection" default_params)))
  | _ => default_params
  end.

(** 1384-1412: the array and the geo-transform written *)
Record image := mkImage { im_data : list (list (option Q)); im_transform : list Q }.
Definition to_tif (m : emesh) (data_name : string) (nlines ncols : Z) : res image :=
  let b := em_bounds m in
  samples <- generate_samples b nlines ncols ;;
  values <- mapM (get_sample_value (em_cells m) data_name) samples ;;
  Ok (mkImage (reshape values (Z.to_nat nlines) (Z.to_nat ncols))
        (get_geo_transform (long_min b, lat_min b, long_max b, lat_max b) nlines ncols)).
