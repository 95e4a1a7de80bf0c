(** Specification of the sea ice of AMSR, IceNet and Visual_Ice as sources: what a
    configured source and its files say (C96). *)
From Verif Require Import Base Geo Graph Cell Loaders Builder Env Spec MeshSpec DataSpec Config ConfigSpec Params ParamSpec Dates DateSpec FilesSpec PipeSpec SourcesSpec Forecast ForecastSpec IceSources.
Open Scope string_scope.
Open Scope Z_scope.

(** What the parameters say about a feed, projections aside. *)
Record settled_moved (p : params) (min_dp : Z) (col : string) (f : feed) : Prop := {
  sm_dict : dict_ok p;
  sm_name : names p col (f_name f);
  sm_agg : text_or p "aggregate_type" "MEAN" (f_agg f);
  sm_known : In (f_agg f) df_aggs;
  sm_min : f_min f = min_dp;
  sm_factors : sget p "downsample_factors" = None \/ sget p "downsample_factors" = Some (JArr [JInt 1; JInt 1]);
  sm_fast : sget p "fast_reprojection" = None \/ sget p "fast_reprojection" = Some (JBool false);
  sm_conds : conditions_say p (f_name f) (f_conds f);
  sm_fill : fill_says p (f_fill f) }.
(** The projections of the hemispheres. *)
Definition hemisphere_says (p : params) (s : string) : Prop :=
  exists h, sget p "hemisphere" = Some (JStr h) /\ ((same_name h "north" /\ s = "EPSG:3411") \/ (same_name h "south" /\ s = "EPSG:3412")).
(** At every place of a grid, the known values there, where the projection puts them. *)
Definition placed (proj : Q -> Q -> Q * Q) (x y : Q) (day : option Z) (v : option Q) : data :=
  match v with Some v => [mkP (snd (proj x y)) (fst (proj x y)) day [Some v]] | None => [] end.
Definition over_grid (ys xs : list (Q * nat)) (here : Q * nat -> Q * nat -> data) : data := flat_map (fun y => flat_map (fun x => here x y) xs) ys.
(** The days of a period. *)
Definition period (b : boundary) (first last : Z * Z * Z) : Prop :=
  calendar_date first /\ calendar_date last /\ time_range b = [day_number first; day_number last].

Section Ice.
Variable glob : string -> list string.
Variable proj : string -> string -> Q -> Q -> Q * Q.
Variable open_amsr : string -> res amsr_ds.
Variable open_icenet : string -> res icenet_ds.
Variable open_ice : string -> res xrds.
(** AMSR: the files of the period, on one grid. *)
Definition amsr_feed (b : boundary) (min_dp : Z) (src : string * params) (f : feed) : Prop :=
  exists files kept s out first last ys xs days,
    same_name (fst src) "amsr" /\ settled_moved (snd src) min_dp "SIC" f /\ lists_files glob (snd src) files /\
    hemisphere_says (snd src) s /\ text_or (snd src) "out_proj" "EPSG:4326" out /\ s <> out /\
    period b first last /\ (forall f, In f files -> exists date, name_amsr f date /\ a_date date) /\ kept <> [] /\
    picked (fun f => exists date, name_amsr f date /\ a_date date /\ date_le first date /\ date_le date last) files kept /\
    Forall2 (fun f o => exists date, name_amsr f date /\ a_date date /\ fst o = day_number date /\ open_amsr f = Ok (ys, xs, snd o)) kept days /\
    f_xr f = false /\ f_data f = over_grid ys xs (fun x y => flat_map (fun o => placed (proj s out) (fst x) (fst y) (Some (fst o)) (snd o (snd y) (snd x))) days) /\
    forall p, In p (f_data f) -> (-180 <= p_long p <= 180)%Q.
(** Visual_Ice: one file; the projection and the columns are given. *)
Definition visual_ice_feed (b : boundary) (min_dp : Z) (src : string * params) (f : feed) : Prop :=
  exists file s out ds, same_name (fst src) "visual_iced" /\ settled_moved (snd src) min_dp "SIC" f /\ lists_files glob (snd src) [file] /\
    (exists stem, file = stem ++ ".nc" \/ file = stem ++ ".tiff") /\ open_ice file = Ok ds /\
    text_or (snd src) "in_proj" "EPSG:4326" s /\ text_or (snd src) "out_proj" "EPSG:4326" out /\ s <> out /\
    sget (snd src) "x_col" = Some (JStr "x") /\ sget (snd src) "y_col" = Some (JStr "y") /\ x_time ds = None /\
    (forall y x, In y (x_lat ds) -> In x (x_long ds) -> List.length (x_val ds (snd y) (snd x) 0%nat) = 1%nat) /\
    f_xr f = false /\
    f_data f = over_grid (x_lat ds) (x_long ds) (fun x y => placed (proj s out) (fst x) (fst y) None (option_map (fun v => v * 100)%Q (hd None (x_val ds (snd y) (snd x) 0%nat)))) /\
    forall p, In p (f_data f) -> (-180 <= p_long p <= 180)%Q.
(** IceNet: the last forecast of the latest file made before the period. *)
Definition icenet_feed (b : boundary) (min_dp : Z) (src : string * params) (f : feed) : Prop :=
  exists files first last file made ds run, same_name (fst src) "icenet" /\ settled (snd src) min_dp "SIC" f /\ lists_files glob (snd src) files /\
    period b first last /\ day_number first <= day_number last /\
    (forall f, In f files -> exists date, name_icenet f date /\ a_date date) /\
    In file files /\ name_icenet file made /\ a_date made /\ date_lt made first /\
    (forall f date, In f files -> name_icenet f date -> a_date date -> date_lt date first -> f = file \/ date_lt date made) /\
    open_icenet file = Ok ds /\ last_before (i_runs ds) (day_number first) run /\
    day_number last < run + i_leads ds /\ day_number last < day_number made + i_leads ds /\
    f_xr f = false /\ f_data f = predictions ds run (day_number first) (Z.to_nat (day_number last - day_number first)).
Definition describes_ice (b : boundary) (min_dp : Z) (src : string * params) (f : feed) : Prop :=
  amsr_feed b min_dp src f \/ visual_ice_feed b min_dp src f \/ icenet_feed b min_dp src f.
End Ice.
