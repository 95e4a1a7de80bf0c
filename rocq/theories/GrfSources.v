(** Model of the random fields as sources, from the configuration to the object the mesh
    uses: [__init__] of abstract_scalar.py 53-95 and abstract_vector.py 47-100 with
    [import_data] of scalar_grf.py 64-138 and vector_grf.py 50-106; the fields are those of
    Grf.v, the other steps those of Sources.v and VecSources.v.  No proofs here.

    The noise is what the random number generator gives for the n-th field of the k-th
    source with a seed, a size and an exponent: any function; a seed or an exponent of
    another kind raises there. *)
From Verif Require Import Base Geo Graph Cell Loaders AddLoader VecLoader Builder Env Config Params Reproject Sources VecSources Shapes ShapeSources Grf Lut LutFiles LutSources AllSources.
Open Scope string_scope.
Open Scope Z_scope.

(** [self.threshold[0]] and [self.threshold[1]] *)
Definition attr_thresholds (p : params) : res (Q * Q) :=
  v <- attr p "threshold" ;;
  match v with
  | JArr (x :: y :: _) => a <- a_number x ;; c <- a_number y ;; Ok (a, c)
  | JArr _ => Err IndexError
  | _ => Err TypeError
  end.
Definition read_grf (p : params) (size : Z) : res grf_params :=
  binary <- attr p "binary" ;;
  if py_true binary then t <- attr_number p "threshold" ;; Ok (mkGrf size true t 0 0 0 0 0)
  else
    t <- attr_thresholds p ;; lo <- attr_number p "min" ;; hi <- attr_number p "max" ;;
    m <- attr_number p "multiplier" ;; a <- attr_number p "offset" ;;
    Ok (mkGrf size false (fst t) (snd t) lo hi m a).

Section GrfSources.
  Variable sqrt : Q -> Q.
  Variables cos sin : Q -> Q.
  Variable proj : string -> string -> Q -> Q -> Q * Q.
  Variable noise : nat -> nat -> json -> Z -> json -> res (list Q).
  Definition construct_grf (k : nat) (p : params) (b : boundary) : res (loader * data) :=
    seed <- attr p "seed" ;; size <- attr_int p "size" ;; alpha <- attr p "alpha" ;;
    l <- noise k 0%nat seed size alpha ;;
    g <- read_grf p size ;;
    ds <- import_scalar_grf g l b ;;
    construct_dataset sqrt proj k p b (["data"], ds).
  Definition construct_vector_grf (k : nat) (p : params) (b : boundary) : res (loader * data) :=
    seed <- attr p "seed" ;; size <- attr_int p "size" ;; alpha <- attr p "alpha" ;;
    l <- noise k 0%nat seed size alpha ;; t <- noise k 1%nat seed size alpha ;;
    lo <- attr_number p "min" ;; hi <- attr_number p "max" ;;
    ds <- import_vector_grf cos sin (mkGrf size false 0 0 lo hi 0 0) l t b ;;
    x <- attr_text p "vec_x" ;; y <- attr_text p "vec_y" ;;
    construct_vector_dataset sqrt k p b ([x; y], ds).

  (** Any source at all. *)
  Variable o : planar.
  Variable edge : geom o -> geom o -> bool.
  Variables dsin dcos : Q -> Q.
  Variable read_csv : string -> res dframe.
  Variable open_nc : string -> list string -> res (list string * xrds).
  Variable read_table : string -> res (csv o).
  Variable read_shapes : string -> res (list (geom o)).
  Definition construct_every (k : nat) (cls : string) (p : params) (b : boundary) : res (loader * data) :=
    if String.eqb cls "ScalarGRFDataLoader" then construct_grf k p b
    else if String.eqb cls "VectorGRFDataLoader" then construct_vector_grf k p b
    else construct_all o edge sqrt dsin dcos proj read_csv open_nc read_table read_shapes k cls p b.
End GrfSources.
