(** Model of meshiphi/dataloaders/factory.py, of the [add_default_params] methods
    of the dataloaders and of MeshBuilder.check_value_fill_type.  No proofs here.

    Parameters are Python objects as read from JSON; a tuple is a [JArr]. *)
From Verif Require Import Base Geo Cell PyStr Dates Config.
Open Scope string_scope.
Open Scope Z_scope.

Definition params := sdict json.
(** [k in d] *)
Definition given (d : params) (k : string) : bool := match sget d k with Some _ => true | None => false end.
(** [if k not in d: d[k] = v] *)
Definition dflt (k : string) (v : json) (d : params) : params := if given d k then d else sset d k v.
(** [del d[k]] for a key present once *)
Fixpoint sdel (d : params) (k : string) : params :=
  match d with
  | [] => []
  | (k', v) :: d' => if String.eqb k k' then d' else (k', v) :: sdel d' k
  end.

(** ** factory.py *)

(** [os.path.join(folder, '')]: a slash is added unless the folder is empty or
    already ends with one. *)
Fixpoint join_slash (s : string) : string :=
  match s with
  | "" => ""
  | String c "" => if Ascii.eqb c "/"%char then s else String c "/"
  | String c s' => String c (join_slash s')
  end.

Section Factory.
(** [sorted(glob(pattern))]: the file system. *)
Variable sorted_glob : string -> list string.

(** factory.py 143-160 [translate_file_input] (in place, as everywhere here: the
    result is the same dictionary). *)
Definition translate_file_input (p : params) : res params :=
  match sget p "file" with
  | Some f => Ok (sdel (sset p "files" (JArr [f])) "file")
  | None =>
      match sget p "folder" with
      | Some (JStr folder) =>
          Ok (sdel (sset p "files" (JArr (map JStr (sorted_glob (join_slash folder ++ "*"))))) "folder")
      | Some _ => Err TypeError
      | None => Ok p
      end
  end.

(** factory.py 78-127: the table of loaders (class name, required parameters). *)
Definition requirements : list (string * (string * list string)) := [
  ("scalar_csv", ("ScalarCSVDataLoader", ["files"]));
  ("scalar_grf", ("ScalarGRFDataLoader", ["binary"]));
  ("binary_grf", ("ScalarGRFDataLoader", ["binary"]));
  ("amsr", ("AMSRDataLoader", ["files"; "hemisphere"]));
  ("bsose_sic", ("BSOSESeaIceDataLoader", ["files"]));
  ("bsose_depth", ("BSOSEDepthDataLoader", ["files"]));
  ("baltic_sic", ("BalticSeaIceDataLoader", ["files"]));
  ("gebco", ("GEBCODataLoader", ["files"]));
  ("icenet", ("IceNetDataLoader", ["files"]));
  ("modis", ("MODISDataLoader", ["files"]));
  ("visual_iced", ("VisualIcedDataLoader", ["files"]));
  ("era5_sig_wave_height", ("ERA5SigWaveHeightDataLoader", ["files"]));
  ("era5_max_wave_height", ("ERA5MaxWaveHeightDataLoader", ["files"]));
  ("era5_wave_dir", ("ERA5MeanWaveDirDataLoader", ["files"]));
  ("era5_wave_period", ("ERA5WavePeriodDataLoader", ["files"]));
  ("era5_wind_mag", ("ERA5WindMagDataLoader", ["files"]));
  ("era5_wind_dir", ("ERA5WindDirDataLoader", ["files"]));
  ("ecmwf_sig_wave_height", ("ECMWFSigWaveHeightDataLoader", ["files"]));
  ("circle", ("ShapeDataLoader", []));
  ("rectangle", ("ShapeDataLoader", []));
  ("gradient", ("ShapeDataLoader", []));
  ("checkerboard", ("ShapeDataLoader", []));
  ("vector_csv", ("VectorCSVDataLoader", ["files"]));
  ("vector_grf", ("VectorGRFDataLoader", []));
  ("baltic_currents", ("BalticCurrentDataLoader", ["files"]));
  ("era5_wind", ("ERA5WindDataLoader", ["files"]));
  ("era5_wave_direction", ("ERA5WaveDirectionLoader", ["files"]));
  ("northsea_currents", ("NorthSeaCurrentDataLoader", ["files"]));
  ("duacs_currents", ("DuacsCurrentDataLoader", ["files"]));
  ("oras5_currents", ("ORAS5CurrentDataLoader", ["files"]));
  ("sose", ("SOSEDataLoader", ["files"]));
  ("vector_circle", ("VectorShapeDataLoader", []));
  ("vector_gradient", ("VectorShapeDataLoader", []));
  ("vector_rectangle", ("VectorShapeDataLoader", []));
  ("thickness", ("ThicknessDataLoader", []));
  ("density", ("DensityDataLoader", []));
  ("scotland_ncmpa", ("ScotlandNCMPA", ["files"]));
  ("lut_csv", ("LutCSV", ["files"]));
  ("lut_geojson", ("LutGeoJSON", ["files"; "value"]));
  ("lut_shapefile", ("LutShapefile", ["files"; "value"]))].

(** factory.py 48-136 [get_dataloader], up to the call of the class: the class
    and the parameters it is called with. *)
Definition get_dataloader (name : string) (p : params) (min_dp : Z) : res (string * params) :=
  let name := lower name in
  p <- translate_file_input p ;;
  let p := sset p "dataloader_name" (JStr name) in
  let p := sset p "min_dp" (JInt min_dp) in
  match sget requirements name with
  | None => Err ValueError
  | Some (cls, req) => if forallb (given p) req then Ok (cls, p) else Err AssertionError
  end.
End Factory.

(** ** Default parameters *)

(** abstract_scalar.py 132-163 = abstract_vector.py 135-166 *)
Definition base_defaults (cls : string) (p : params) : params :=
  let p := dflt "dataloader_name" (JStr cls) p in
  let p := dflt "data_name" JNull p in
  let p := dflt "downsample_factors" (JArr [JInt 1; JInt 1]) p in
  let p := dflt "aggregate_type" (JStr "MEAN") p in
  let p := dflt "min_dp" (JInt 5) p in
  let p := dflt "in_proj" (JStr "EPSG:4326") p in
  let p := dflt "out_proj" (JStr "EPSG:4326") p in
  let p := dflt "x_col" (JStr "lat") p in
  let p := dflt "y_col" (JStr "long") p in
  dflt "fast_reprojection" (JBool false) p.

(** abstract_lut.py 120-129 *)
Definition lut_defaults (cls : string) (p : params) : params :=
  let p := dflt "dataloader_name" (JStr cls) p in
  let p := dflt "data_name" JNull p in
  dflt "aggregate_type" (JStr "MEAN") p.
(** lut_geojson.py 27-34 = lut_shapefile.py 27-34 *)
Definition lut_file_defaults (cls : string) (p : params) : params :=
  dflt "data_name" (JStr "dummy_data") (lut_defaults cls p).

Definition is_name (p : params) (n : string) : bool :=
  match sget p "dataloader_name" with Some (JStr s) => String.eqb s n | _ => false end.
Definition no_centre : json := JArr [JNull; JNull].

(** scalar/shape.py 26-62.  Line 50 sets the width when the height is missing. *)
Definition shape_defaults (cls : string) (p : params) : params :=
  let p := base_defaults cls p in
  let p := dflt "nx" (JInt 101) p in
  let p := dflt "ny" (JInt 101) p in
  let p := dflt "multiplier" (JInt 1) p in
  if is_name p "circle" then
    let p := dflt "radius" (JInt 1) p in dflt "centre" no_centre p
  else if is_name p "rectangle" then
    let p := dflt "width" (JInt 1) p in
    let p := if given p "height" then p else sset p "width" (JInt 1) in
    dflt "centre" no_centre p
  else if is_name p "gradient" then dflt "vertical" (JBool true) p
  else if is_name p "checkerboard" then dflt "gridsize" (JArr [JInt 1; JInt 1]) p
  else p.

(** vector/vector_shape.py 24-58.  Lines 34-37 set "multiplier"; the names
    compared with in 40-56 are not the names 77-82 accepts. *)
Definition vector_shape_defaults (cls : string) (p : params) : params :=
  let p := base_defaults cls p in
  let p := dflt "nx" (JInt 101) p in
  let p := dflt "ny" (JInt 101) p in
  let p := if given p "multiplier_u" then p else sset p "multiplier" (JInt 1) in
  let p := if given p "multiplier_v" then p else sset p "multiplier" (JInt 1) in
  if is_name p "circle" then
    let p := dflt "radius" (JInt 1) p in dflt "centre" no_centre p
  else if is_name p "rectangle" then
    let p := dflt "width" (JInt 1) p in
    let p := if given p "height" then p else sset p "width" (JInt 1) in
    dflt "centre" no_centre p
  else if is_name p "gradient" then dflt "vertical" (JBool true) p
  else p.

(** [p[k] is None] *)
Definition is_null (p : params) (k : string) : bool := match sget p k with Some JNull => true | _ => false end.

(** [v == True]: also the numbers equal to 1. *)
Definition py_true (v : json) : bool :=
  match v with JBool b => b | JInt z => z =? 1 | JFloat q => qeqb q 1 | _ => false end.

(** scalar/scalar_grf.py 25-62 *)
Definition scalar_grf_defaults (cls : string) (p : params) : res params :=
  let p := base_defaults cls p in
  let p := dflt "seed" JNull p in
  let p := dflt "size" (JInt 512) p in
  let p := dflt "alpha" (JInt 3) p in
  match sget p "binary" with
  | None => Err KeyError
  | Some b =>
      if py_true b then
        let p := if is_null p "data_name" then sset p "data_name" (JStr "binary_data") else p in
        let p := dflt "min" (JInt 0) p in
        let p := dflt "max" (JInt 1) p in
        Ok (dflt "threshold" (JFloat (1#2)) p)
      else
        let p := if is_null p "data_name" then sset p "data_name" (JStr "scalar_data") else p in
        let p := dflt "min" (JInt (-10)) p in
        let p := dflt "max" (JInt 10) p in
        let p := dflt "threshold" (JArr [JInt 0; JInt 1]) p in
        let p := dflt "multiplier" (JInt 1) p in
        Ok (dflt "offset" (JInt 0) p)
  end.

(** vector/vector_grf.py 25-48: [data_name.split(',')[0]] and [[1]]; a name that
    is not a string has no [split]. *)
Definition vector_grf_defaults (cls : string) (p : params) : res params :=
  let p := base_defaults cls p in
  let p := dflt "seed" JNull p in
  let p := dflt "size" (JInt 512) p in
  let p := dflt "alpha" (JInt 3) p in
  let p := if is_null p "data_name" then sset p "data_name" (JStr "uC,vC") else p in
  let part i := match sget p "data_name" with
                | Some (JStr s) => match nth_error (split "," s) i with Some x => Ok (JStr x) | None => Err IndexError end
                | _ => Err AttributeError
                end in
  p <- (if given p "vec_x" then Ok p else x <- part 0%nat ;; Ok (sset p "vec_x" x)) ;;
  p <- (if given p "vec_y" then Ok p else x <- part 1%nat ;; Ok (sset p "vec_y" x)) ;;
  Ok (dflt "max" (JInt 10) (dflt "min" (JInt 0) p)).

(** scalar/amsr.py 23-39 *)
Definition amsr_defaults (cls : string) (p : params) : res params :=
  let p := base_defaults cls p in
  match sget p "hemisphere" with
  | None => Err KeyError
  | Some (JStr h) =>
      let h := lower h in
      if String.eqb h "north" then
        Ok (sset (sset (sset p "in_proj" (JStr "EPSG:3411")) "x_col" (JStr "x")) "y_col" (JStr "y"))
      else if String.eqb h "south" then
        Ok (sset (sset (sset p "in_proj" (JStr "EPSG:3412")) "x_col" (JStr "x")) "y_col" (JStr "y"))
      else Err ValueError
  | Some _ => Err AttributeError
  end.

(** Which method a class uses; the classes not listed inherit the method of their
    abstract class. *)
Definition lut_classes : list string := ["ThicknessDataLoader"; "DensityDataLoader"; "ScotlandNCMPA"; "LutCSV"].
Definition add_default_params (cls : string) (p : params) : res params :=
  if String.eqb cls "ShapeDataLoader" then Ok (shape_defaults cls p)
  else if String.eqb cls "VectorShapeDataLoader" then Ok (vector_shape_defaults cls p)
  else if String.eqb cls "ScalarGRFDataLoader" then scalar_grf_defaults cls p
  else if String.eqb cls "VectorGRFDataLoader" then vector_grf_defaults cls p
  else if String.eqb cls "AMSRDataLoader" then amsr_defaults cls p
  else if String.eqb cls "LutGeoJSON" || String.eqb cls "LutShapefile" then Ok (lut_file_defaults cls p)
  else if existsb (String.eqb cls) lut_classes then Ok (lut_defaults cls p)
  else Ok (base_defaults cls p).

(** ** The fill type of a source *)

(** mesh_builder.py 220-235 [check_value_fill_type].  [float_text s]: float(s)
    does not raise; float of a list or dictionary raises TypeError, which is not
    caught. *)
Definition check_value_fill_type (float_text : string -> bool) (p : params) : res json :=
  match sget p "value_fill_types" with
  | None => Ok (JStr "parent")
  | Some v =>
      match v with
      | JBool _ | JInt _ | JFloat _ => Ok v
      | JStr s => if float_text s || String.eqb s "parent" || String.eqb s "Nan" then Ok v else Ok (JStr "parent")
      | JNull => Ok (JStr "parent")
      | JArr _ | JObj _ => Err TypeError
      end
  end.
