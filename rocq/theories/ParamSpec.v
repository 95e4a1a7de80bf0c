(** Specification of the dataloader factory and of default parameters. *)
From Verif Require Import Base Geo Cell PyStr Dates Config Params.
Open Scope string_scope.
Open Scope Z_scope.

(** The same letter in upper or lower case, or the same character. *)
Definition same_letter (a b : ascii) : Prop :=
  a = b \/ exists i, (i < 26)%nat /\
    ((a = ascii_of_nat (65 + i) /\ b = ascii_of_nat (97 + i)) \/ (b = ascii_of_nat (65 + i) /\ a = ascii_of_nat (97 + i))).
Fixpoint same_name (s t : string) : Prop :=
  match s, t with
  | "", "" => True
  | String a s', String b t' => same_letter a b /\ same_name s' t'
  | _, _ => False
  end.

(** A Python dictionary has each key once. *)
Definition dict_ok (p : params) : Prop := NoDup (map fst p).

(** Nothing the user gave is changed. *)
Definition keeps (p p' : params) : Prop := forall k v, sget p k = Some v -> sget p' k = Some v.
Definition keeps_but (l : list string) (p p' : params) : Prop :=
  forall k v, ~ In k l -> sget p k = Some v -> sget p' k = Some v.
(** All the keys have a value. *)
Definition fills (l : list string) (p : params) : Prop := forall k, In k l -> sget p k <> None.

(** The attributes the initialisation of every scalar or vector loader reads
    (abstract_scalar.py 44-96, abstract_vector.py 44-110, downsample, reproject,
    get_value, get_hom_condition); those a lookup table reads (abstract_lut.py
    43-88). *)
Definition base_required : list string :=
  ["dataloader_name"; "data_name"; "downsample_factors"; "aggregate_type"; "min_dp"; "in_proj"; "out_proj";
   "x_col"; "y_col"; "fast_reprojection"].
Definition lut_required : list string := ["dataloader_name"; "data_name"; "aggregate_type"].

(** What the generators of the abstract shapes read (scalar/shape.py 96-291):
    the shape's name and the attributes. *)
Definition shape_required (name : string) : list string :=
  if String.eqb name "circle" then ["nx"; "ny"; "multiplier"; "radius"; "centre"]
  else if String.eqb name "rectangle" then ["nx"; "ny"; "multiplier"; "width"; "height"; "centre"]
  else if String.eqb name "gradient" then ["nx"; "ny"; "multiplier"; "vertical"]
  else if String.eqb name "checkerboard" then ["nx"; "ny"; "gridsize"]
  else [].
(** vector/vector_shape.py 93-260 *)
Definition vector_shape_required (name : string) : list string :=
  if String.eqb name "vector_circle" then ["nx"; "ny"; "multiplier_u"; "multiplier_v"; "radius"; "centre"]
  else if String.eqb name "vector_rectangle" then ["nx"; "ny"; "multiplier_u"; "multiplier_v"; "width"; "height"; "centre"]
  else if String.eqb name "vector_gradient" then ["nx"; "ny"; "multiplier_u"; "multiplier_v"; "vertical"]
  else [].
(** scalar_grf.py 64-138, vector_grf.py 50-106 *)
Definition grf_required (binary : bool) : list string :=
  if binary then ["seed"; "size"; "alpha"; "min"; "max"; "threshold"]
  else ["seed"; "size"; "alpha"; "min"; "max"; "threshold"; "multiplier"; "offset"].
Definition vector_grf_required : list string := ["seed"; "size"; "alpha"; "vec_x"; "vec_y"; "min"; "max"].

(** The loader names the documentation of [get_dataloader] lists (factory.py 55-62). *)
Definition documented : list string :=
  ["scalar_csv"; "scalar_grf"; "binary_grf"; "amsr"; "bsose_sic"; "bsose_depth"; "baltic_sic"; "gebco"; "icenet"; "modis";
   "thickness"; "density"; "circle"; "square"; "gradient"; "checkerboard"; "vector_csv"; "vector_grf"; "baltic_currents";
   "era5_wind"; "northsea_currents"; "oras5_currents"; "sose"; "duacs_currents"; "era5_wave_height"; "era5_wave_direction"].

(** The classes that override the abstract classes' method with more than names. *)
Definition special : list string :=
  ["ShapeDataLoader"; "VectorShapeDataLoader"; "ScalarGRFDataLoader"; "VectorGRFDataLoader"; "AMSRDataLoader"].

(** ** Required parameters *)
(** The loaders that generate their own data need no file. *)
Definition fileless : list string :=
  ["scalar_grf"; "binary_grf"; "circle"; "rectangle"; "gradient"; "checkerboard"; "vector_grf";
   "vector_circle"; "vector_gradient"; "vector_rectangle"; "thickness"; "density"].
Definition needs (name r : string) : Prop :=
  (r = "files" /\ ~ In name fileless) \/
  (r = "binary" /\ (name = "scalar_grf" \/ name = "binary_grf")) \/
  (r = "hemisphere" /\ name = "amsr") \/
  (r = "value" /\ (name = "lut_geojson" \/ name = "lut_shapefile")).
(** The class for each name. *)
Definition classes : list (string * string) :=
  [("scalar_csv", "ScalarCSVDataLoader");
   ("scalar_grf", "ScalarGRFDataLoader");
   ("binary_grf", "ScalarGRFDataLoader");
   ("amsr", "AMSRDataLoader");
   ("bsose_sic", "BSOSESeaIceDataLoader");
   ("bsose_depth", "BSOSEDepthDataLoader");
   ("baltic_sic", "BalticSeaIceDataLoader");
   ("gebco", "GEBCODataLoader");
   ("icenet", "IceNetDataLoader");
   ("modis", "MODISDataLoader");
   ("visual_iced", "VisualIcedDataLoader");
   ("era5_sig_wave_height", "ERA5SigWaveHeightDataLoader");
   ("era5_max_wave_height", "ERA5MaxWaveHeightDataLoader");
   ("era5_wave_dir", "ERA5MeanWaveDirDataLoader");
   ("era5_wave_period", "ERA5WavePeriodDataLoader");
   ("era5_wind_mag", "ERA5WindMagDataLoader");
   ("era5_wind_dir", "ERA5WindDirDataLoader");
   ("ecmwf_sig_wave_height", "ECMWFSigWaveHeightDataLoader");
   ("circle", "ShapeDataLoader");
   ("rectangle", "ShapeDataLoader");
   ("gradient", "ShapeDataLoader");
   ("checkerboard", "ShapeDataLoader");
   ("vector_csv", "VectorCSVDataLoader");
   ("vector_grf", "VectorGRFDataLoader");
   ("baltic_currents", "BalticCurrentDataLoader");
   ("era5_wind", "ERA5WindDataLoader");
   ("era5_wave_direction", "ERA5WaveDirectionLoader");
   ("northsea_currents", "NorthSeaCurrentDataLoader");
   ("duacs_currents", "DuacsCurrentDataLoader");
   ("oras5_currents", "ORAS5CurrentDataLoader");
   ("sose", "SOSEDataLoader");
   ("vector_circle", "VectorShapeDataLoader");
   ("vector_gradient", "VectorShapeDataLoader");
   ("vector_rectangle", "VectorShapeDataLoader");
   ("thickness", "ThicknessDataLoader");
   ("density", "DensityDataLoader");
   ("scotland_ncmpa", "ScotlandNCMPA");
   ("lut_csv", "LutCSV");
   ("lut_geojson", "LutGeoJSON");
   ("lut_shapefile", "LutShapefile")].
