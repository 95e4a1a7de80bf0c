(** Specification vocabulary for C75. *)
From Verif Require Import Base Geo Cell Params ParamSpec Config ConfigSpec.
Open Scope string_scope.
Open Scope Z_scope.

(** A source names its files in one way: not both by "file" and by "folder". *)
Definition one_way (src : string * sdict json) : Prop :=
  dict_ok (snd src) /\ (sget (snd src) "file" = None \/ sget (snd src) "folder" = None).

(** The parameters [p], with the files [v] where there is an entry for files. *)
Definition files_replaced (p : params) (v : json) (q : params) : Prop :=
  map fst q = map fst p /\
  (forall k, k <> "files" -> sget q k = sget p k) /\
  (sget p "files" <> None -> sget q "files" = Some v).

(** [s'] has the same region, sizes and splitting as [s]. *)
Definition same_grid (s s' : settings) : Prop :=
  s_lat_min s' = s_lat_min s /\ s_lat_max s' = s_lat_max s /\ s_long_min s' = s_long_min s /\ s_long_max s' = s_long_max s /\
  s_width s' = s_width s /\ s_height s' = s_height s /\ s_depth s' = s_depth s /\ s_points s' = s_points s.
