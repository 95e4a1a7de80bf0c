(** Specification of downsampled wind directions and currents of ORAS5 (C102). *)
From Coq Require Import Permutation.
From Verif Require Import Base Geo Graph Cell Loaders AddLoader VecLoader Builder Env Spec MeshSpec DataSpec ConstructSpec ImportSpec ReprojectSpec Reproject Config ConfigSpec Params ParamSpec
  PyStr Dates DateSpec FilesSpec FilesProofs PropsFiles PipeSpec SourcesSpec MixSpec VecSourcesSpec WindSourcesSpec Forecast DownSpec SampleSpec VecSampleSpec.
Open Scope string_scope.
Open Scope Z_scope.

(** As [wind_dir_feed]; the directions in the region, [inner], are taken in blocks. *)
Definition sampled_wind_dir (glob : string -> list string) (open_nc : string -> list string -> res (list string * xrds)) (bearing : Q -> Q -> Q) (b : boundary) (min_dp : Z)
    (src : string * params) (f : feed) : Prop :=
  exists files kept vars ds convert m n d inner ds', same_name (fst src) "era5_wind_dir" /\ settled_sampled (snd src) min_dp "wind_dir" m n f /\ lists_files glob (snd src) files /\ in_period b files kept /\
    open_nc "ERA5WindDirDataLoader" kept = Ok (vars, ds) /\ decreasing (x_lat ds) /\ dated b ds /\
    (forall l, from_where bearing l (convert l)) /\ taken convert ds d /\ selected (belongs b) d (xr_points inner) /\ ordered inner /\
    in_blocks (f_agg f) m n inner ds' /\ f_data f = xr_points ds' /\ f_xr f = true.
(** As [oras5_feed]; the currents in the region, [inner], are taken in blocks. *)
Definition sampled_oras5 (glob : string -> list string) (open_oras : list string -> res oras5_file) (b : boundary) (min_dp : Z) (src : string * params) (v : vfeed) : Prop :=
  exists files ds m n d inner ds', same_name (fst src) "oras5_currents" /\ vector_settled_sampled (snd src) min_dp ["uC"; "vC"] m n v /\ lists_files glob (snd src) files /\
    open_oras files = Ok (OnAxes ds) /\ dated b ds /\ increasing (x_lat ds) /\ increasing (x_long ds) /\
    (forall p, In p (xr_points ds) -> List.length (p_vals p) = 2%nat) /\ Permutation d (xr_points ds) /\ selected (belongs b) d (xr_points inner) /\ ordered inner /\
    in_blocks (v_agg v) m n inner ds' /\ (forall p, In p (xr_points ds') -> List.length (p_vals p) = 2%nat) /\
    v_data v = xr_points ds' /\ v_xr v = true /\ v_conds v = [].
(** The configuration names this source, to be downsampled by factors other than 1 and 1. *)
Definition asks_sampled (cfg : json) (name : string) : Prop :=
  exists sources src n p a m agg, jget cfg "data_sources" = Ok (JArr sources) /\ In src sources /\
    jget src "loader" = Ok (JStr n) /\ same_name n name /\ jget src "params" = Ok (JObj p) /\ dict_ok p /\
    sget p "downsample_factors" = Some (JArr [JInt a; JInt m]) /\ (a <> 1 \/ m <> 1) /\
    text_or p "aggregate_type" "MEAN" agg /\ In agg ["MIN"; "MAX"; "MEAN"; "MEDIAN"; "STD"; "COUNT"].
