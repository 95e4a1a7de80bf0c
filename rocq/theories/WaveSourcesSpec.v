(** Specification of configured wave heights and currents (C99). *)
From Verif Require Import Base Geo Graph Cell Loaders Builder Env Spec MeshSpec DataSpec ConstructSpec ImportSpec ReprojectSpec Reproject Config ConfigSpec Params ParamSpec
  PyStr Dates DateSpec FilesSpec FilesProofs PropsFiles PipeSpec SourcesSpec MixSpec VecSourcesSpec Forecast.
Open Scope string_scope.
Open Scope Z_scope.

(** The rows of a file without times, for a day. *)
Definition for_day (day : Z) (ds : xrds) : data := map (fun p => mkP (p_lat p) (p_long p) (Some day) (p_vals p)) (xr_points ds).
(** The forecasts of the last run before the period, for the hours from its first midnight
    to that of its last day. *)
Definition forecasts (b : boundary) (dir : string) (files kept : list string) : Prop :=
  exists first last c, directory dir /\ (forall f, In f files -> exists date h n, name_ecmwf dir f date h n /\ a_date date) /\
    time_range b = [ord first; ord last] /\ last_run dir files (hours first 0) c /\ kept <> [] /\
    picked (fun f => made_at dir f c /\ exists v, valid_at dir f v /\ hours first 0 <= v <= hours last 0) files kept.
(** Names later in the alphabet are for hours not later. *)
Definition hours_in_order (dir : string) (kept : list string) : Prop :=
  forall f g v w, In f kept -> In g kept -> String.compare f g = Gt -> valid_at dir f v -> valid_at dir g w -> v <= w.
Definition wave_feed (glob : string -> list string) (strict : bool) (open_wave : string -> res xrds) (b : boundary) (min_dp : Z)
    (src : string * params) (f : feed) : Prop :=
  exists dir files kept lats longs rows, same_name (fst src) "ecmwf_sig_wave_height" /\ settled (snd src) min_dp "swh" f /\ lists_files glob (snd src) files /\
    forecasts b dir files kept /\ (strict = false \/ hours_in_order dir kept) /\
    decreasing lats /\ increasing longs /\ (forall x, In x longs -> (-180 <= fst x <= 180)%Q) /\
    Forall2 (fun file d => exists v ds, valid_at dir file v /\ open_wave file = Ok ds /\ x_lat ds = lats /\ x_long ds = longs /\ x_time ds = None /\ d = for_day (v / 24) ds) kept rows /\
    Permutation (f_data f) (List.concat rows) /\ f_xr f = true.

(** Currents on axes of latitude and longitude. *)
Definition oras5_feed (glob : string -> list string) (open_oras : list string -> res oras5_file) (b : boundary) (min_dp : Z) (src : string * params) (v : vfeed) : Prop :=
  exists files ds, same_name (fst src) "oras5_currents" /\ vector_settled (snd src) min_dp ["uC"; "vC"] v /\ lists_files glob (snd src) files /\
    open_oras files = Ok (OnAxes ds) /\ dated b ds /\ increasing (x_lat ds) /\ increasing (x_long ds) /\
    (forall p, In p (xr_points ds) -> List.length (p_vals p) = 2%nat) /\ Permutation (v_data v) (xr_points ds) /\ v_xr v = true /\ v_conds v = [].
