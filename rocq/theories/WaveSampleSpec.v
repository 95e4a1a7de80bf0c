(** Specification of downsampled wave heights of ECMWF (C101). *)
From Coq Require Import Permutation.
From Verif Require Import Base Geo Graph Cell Loaders Builder Env Spec MeshSpec DataSpec ConstructSpec ImportSpec ReprojectSpec Reproject Config ConfigSpec Params ParamSpec
  PyStr Dates DateSpec FilesSpec FilesProofs PropsFiles PipeSpec SourcesSpec MixSpec VecSourcesSpec Forecast DownSpec SampleSpec WaveSourcesSpec.
Open Scope string_scope.
Open Scope Z_scope.

(** A file without times, from the least latitude. *)
Definition from_south (ds : xrds) : xrds := mkXr (rev (x_lat ds)) (x_long ds) None (fun i j _ => x_val ds i j 0%nat).
(** As [wave_feed], but each forecast of the last run before the period is taken in blocks
    of [m] longitudes by [n] latitudes, from the least latitude and longitude of the file;
    the rows are the blocks. *)
Definition sampled_wave (glob : string -> list string) (strict : bool) (open_wave : string -> res xrds) (b : boundary) (min_dp : Z)
    (src : string * params) (f : feed) : Prop :=
  exists dir files kept lats longs m n rows, same_name (fst src) "ecmwf_sig_wave_height" /\ settled_sampled (snd src) min_dp "swh" m n f /\ lists_files glob (snd src) files /\
    forecasts b dir files kept /\ (strict = false \/ hours_in_order dir kept) /\
    decreasing lats /\ increasing longs /\ (forall x, In x longs -> (-180 <= fst x <= 180)%Q) /\
    Forall2 (fun file d => exists v ds ds', valid_at dir file v /\ open_wave file = Ok ds /\ x_lat ds = lats /\ x_long ds = longs /\ x_time ds = None /\
      in_blocks (f_agg f) m n (from_south ds) ds' /\ d = for_day (v / 24) ds') kept rows /\
    Permutation (f_data f) (List.concat rows) /\ f_xr f = true.
