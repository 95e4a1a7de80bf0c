(** Model of the loaders of vectors held as xarray Datasets (abstract_vector.py), as the
    mesh sees them.  No proofs here. *)
From Verif Require Import Base Geo Cell Loaders AddLoader.

(** abstract_vector.py 326-363, 453-525.  Simplification: only without splitting conditions
    ('dmag' raises AttributeError on Datasets and 'curl' is in Curl.v). *)
Definition vector_xr (uid : Z) (names : list string) (agg_type : string) (sqrt : Q -> Q) : loader :=
  mkLoader uid names xr_trim_rows (fun _ _ _ => CLR)
           (fun _ d => vs <- vector_values_xr sqrt agg_type (List.length names) d ;; Ok (combine names vs)).
