(** Model of the construction of any source: the call at the end of factory.py 48-136
    [get_dataloader], for the point sources of Sources.v and VecSources.v, the shapes of
    ShapeSources.v and the look-up tables of LutSources.v.  No proofs here. *)
From Verif Require Import Base Geo Cell Loaders Builder Env Config Params Reproject Sources VecSources Lut LutFiles LutSources Pipeline ShapeSources.
Open Scope string_scope.

Section All.
  Variable o : planar.
  Variable edge : geom o -> geom o -> bool.
  Variables sqrt dsin dcos : Q -> Q.
  Variable proj : string -> string -> Q -> Q -> Q * Q.
  Variable read_csv : string -> res dframe.
  Variable open_nc : string -> list string -> res (list string * xrds).
  Variable read_table : string -> res (csv o).
  Variable read_shapes : string -> res (list (geom o)).
  Definition construct_all (k : nat) (cls : string) (p : params) (b : boundary) : res (loader * data) :=
    if table_class cls then construct_table o edge sqrt read_table read_shapes k cls p b
    else if String.eqb cls "ShapeDataLoader" then construct_shape sqrt proj k p b
    else if String.eqb cls "VectorShapeDataLoader" then construct_vector_shape sqrt k p b
    else construct_any sqrt dsin dcos proj read_csv open_nc k cls p b.
End All.
