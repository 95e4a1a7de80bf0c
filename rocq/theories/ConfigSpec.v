(** Specification of mesh configurations, used by C39 and C51.  Apart from the
    JSON values themselves and [sget] (look up a key) nothing here refers to the
    model's functions. *)
From Coq Require Import Ascii String.
From Verif Require Import Base Geo Cell Spec MeshSpec DateSpec Config.
Open Scope string_scope.
Open Scope Z_scope.

(** What a mesh configuration says. *)
Record settings := mkSettings {
  s_lat_min : Q; s_lat_max : Q; s_long_min : Q; s_long_max : Q;
  s_start : string; s_end : string; s_width : Q; s_height : Q;
  s_depth : Z; s_points : Z; s_loaders : list (string * sdict json) }.

(** A JSON number, int or float; not true or false. *)
Inductive number : json -> Q -> Prop :=
| num_int z : number (JInt z) (inject_Z z)
| num_float q : number (JFloat q) q.
(** A value Python finds equal to True. *)
Definition equals_true (j : json) : Prop := j = JBool true \/ exists q, number j q /\ (q == 1)%Q.
(** A JSON number without fractional part. *)
Inductive whole : json -> Z -> Prop :=
| whole_int z : whole (JInt z) z
| whole_float q z : (q == inject_Z z)%Q -> whole (JFloat q) z.
Definition number_at (o : sdict json) (k : string) (q : Q) : Prop := exists v, sget o k = Some v /\ number v q.
Definition whole_at (o : sdict json) (k : string) (z : Z) : Prop := exists v, sget o k = Some v /\ whole v z.
Definition text_at (o : sdict json) (k s : string) : Prop := sget o k = Some (JStr s).
Definition only_keys (o : sdict json) (ks : list string) : Prop := forall k v, In (k, v) o -> In k ks.

Definition region_says (r : sdict json) (s : settings) : Prop :=
  number_at r "lat_min" (s_lat_min s) /\ number_at r "lat_max" (s_lat_max s) /\
  number_at r "long_min" (s_long_min s) /\ number_at r "long_max" (s_long_max s) /\
  text_at r "start_time" (s_start s) /\ text_at r "end_time" (s_end s) /\
  number_at r "cell_width" (s_width s) /\ number_at r "cell_height" (s_height s) /\
  only_keys r ["lat_min"; "lat_max"; "long_min"; "long_max"; "start_time"; "end_time"; "cell_width"; "cell_height"].
Definition loader_says (j : json) (l : string * sdict json) : Prop :=
  exists o, j = JObj o /\ text_at o "loader" (fst l) /\ sget o "params" = Some (JObj (snd l)) /\
    only_keys o ["loader"; "params"].
(** [cfg] is a complete configuration with the settings [s]. *)
Definition says (cfg : json) (s : settings) : Prop :=
  exists o r d p, cfg = JObj o /\
    sget o "region" = Some (JObj r) /\ region_says r s /\
    sget o "data_sources" = Some (JArr d) /\ Forall2 loader_says d (s_loaders s) /\
    sget o "splitting" = Some (JObj p) /\ whole_at p "split_depth" (s_depth s) /\
    whole_at p "minimum_datapoints" (s_points s) /\ only_keys p ["split_depth"; "minimum_datapoints"].

(** [t] is [s] without its blanks. *)
Inductive squeezed : string -> string -> Prop :=
| sq_nil : squeezed "" ""
| sq_blank s t : squeezed s t -> squeezed (String " " s) t
| sq_char c s t : c <> " "%char -> squeezed s t -> squeezed (String c s) (String c t).
(** A date text the validator lets through: TODAY, a date YYYY-MM-DD, or
    anything that begins like TODAY+n, TODAY-n or TODAY,n. *)
Definition accepted_time (s : string) : Prop :=
  s = "TODAY" \/
  (exists date, iso_text s date /\ calendar_date date /\ year_ok date) \/
  (exists c d r, squeezed s ("TODAY" ++ String c (String d r)) /\
     (c = "+"%char \/ c = ","%char \/ c = "-"%char) /\ is_digit d).
(** The extent, reduced to less than a full circle, is a whole number of steps. *)
Definition whole_steps (lo hi step : Q) : Prop :=
  (~ step == 0 /\ exists k n : Z, 0 <= hi - lo - inject_Z k * 360 /\ hi - lo - inject_Z k * 360 < 360 /\
     hi - lo - inject_Z k * 360 == inject_Z n * step)%Q.

(** Settings under which C39 holds: sizes are positive, both ends of the longitude
    range are in the domain, the latitude range is shorter than a circle, and for a
    range that closes the circle the cell width divides 360. *)
Definition closes (s : settings) : Prop :=
  (s_long_min s == s_long_max s \/ (s_long_min s == -180 /\ s_long_max s == 180))%Q.
Definition sensible (s : settings) : Prop :=
  (0 < s_width s /\ 0 < s_height s /\ s_long_min s <= 180 /\ -180 <= s_long_max s /\
   ~ (s_long_min s == 180 /\ s_long_max s == -180) /\ s_lat_max s - s_lat_min s < 360)%Q /\
  (closes s -> divides (s_width s) 360).

(** A vessel configuration; further entries are allowed. *)
Definition vessel_says (o : sdict json) : Prop :=
  (exists t, text_at o "VesselType" t) /\ (exists t, text_at o "Unit" t) /\
  (exists q, number_at o "MaxSpeed" q /\ 0 <= q)%Q /\
  (exists q, number_at o "MaxIceConc" q /\ 0 <= q <= 100)%Q /\
  (exists q, number_at o "MinDepth" q /\ 0 <= q)%Q.
(** A route configuration; further entries are allowed. *)
Definition text_list (j : json) (n : nat -> Prop) : Prop :=
  exists l, j = JArr l /\ n (List.length l) /\ forall x, In x l -> exists t, x = JStr t.
Definition if_present (o : sdict json) (k : string) (P : json -> Prop) : Prop := forall v, sget o k = Some v -> P v.
Definition flag_at (o : sdict json) (k : string) : Prop := exists b, sget o k = Some (JBool b).
Definition route_says (o : sdict json) : Prop :=
  (exists t, text_at o "objective_function" t) /\
  (exists v, sget o "path_variables" = Some v /\ text_list v (fun _ => True)) /\
  (exists v, sget o "vector_names" = Some v /\ text_list v (fun n => n = 2%nat)) /\
  flag_at o "variable_speed" /\ flag_at o "early_stopping_criterion" /\ flag_at o "zero_currents" /\
  (exists t, text_at o "time_unit" t /\ (t = "days" \/ t = "hours" \/ t = "seconds")) /\
  if_present o "smoothing_blocked_sic" (fun v => exists q, number v q) /\
  if_present o "smoothing_max_iterations" (fun v => exists z, whole v z) /\
  if_present o "smoothing_merge_separation" (fun v => exists q, number v q) /\
  if_present o "smoothing_converged_sep" (fun v => exists q, number v q).
