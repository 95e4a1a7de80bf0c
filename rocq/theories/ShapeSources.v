(** Model of the synthetic shapes as sources, from the configuration to the object the mesh
    uses: [__init__] of abstract_scalar.py 53-95 and abstract_vector.py 47-100 with
    [import_data] of shape.py 63-94 and vector_shape.py 60-91; the generators are those of
    Shapes.v, the other steps those of Sources.v and VecSources.v.  No proofs here. *)
From Verif Require Import Base Geo Graph Cell Loaders AddLoader VecLoader Builder Env Construct Names PyStr Dates Config Params Downsample Files Import Reproject Sources VecSources Shapes.
Open Scope string_scope.
Open Scope Z_scope.

(** [self.k] where a number is calculated with. *)
Definition a_number (j : json) : res Q := match j with JInt z => Ok (inject_Z z) | JFloat q => Ok q | _ => Err TypeError end.
Definition attr_number (p : params) (k : string) : res Q := v <- attr p k ;; a_number v.
(** [self.centre[0]] and [self.centre[1]].  Simplification: lists of two. *)
Definition attr_centre (p : params) : res (option Q * option Q) :=
  let one j := match j with JNull => Ok None | _ => q <- a_number j ;; Ok (Some q) end in
  v <- attr p "centre" ;;
  match v with JArr [y; x] => cy <- one y ;; cx <- one x ;; Ok (cy, cx) | _ => Err TypeError end.
Definition attr_grid (p : params) : res (Q * Q) :=
  v <- attr p "gridsize" ;;
  match v with JArr [x; y] => w <- a_number x ;; h <- a_number y ;; Ok (w, h) | _ => Err TypeError end.

(** What the generators read: shape.py 96-291, vector_shape.py 93-260. *)
Definition read_circle (p : params) (nx ny : Z) (m : list Q) : res shape_params :=
  c <- attr_centre p ;; r <- attr_number p "radius" ;; Ok (mkShape nx ny m c r 0 0 false (0, 0)%Q).
Definition read_rectangle (p : params) (nx ny : Z) (m : list Q) : res shape_params :=
  c <- attr_centre p ;; w <- attr_number p "width" ;; h <- attr_number p "height" ;; Ok (mkShape nx ny m c 0 w h false (0, 0)%Q).
Definition read_gradient (p : params) (nx ny : Z) (m : list Q) : res shape_params :=
  v <- attr p "vertical" ;; Ok (mkShape nx ny m (None, None) 0 0 0 (py_true v) (0, 0)%Q).
Definition read_checkerboard (p : params) (nx ny : Z) : res shape_params :=
  g <- attr_grid p ;; Ok (mkShape nx ny [] (None, None) 0 0 0 false g).
Definition read_shape (p : params) (name : string) : res shape_params :=
  nx <- attr_int p "nx" ;; ny <- attr_int p "ny" ;;
  if String.eqb name "checkerboard" then read_checkerboard p nx ny
  else
    m <- attr_number p "multiplier" ;;
    if String.eqb name "circle" then read_circle p nx ny [m]
    else if String.eqb name "gradient" then read_gradient p nx ny [m]
    else read_rectangle p nx ny [m].
Definition read_vector_shape (p : params) (name : string) : res shape_params :=
  nx <- attr_int p "nx" ;; ny <- attr_int p "ny" ;;
  mu <- attr_number p "multiplier_u" ;; mv <- attr_number p "multiplier_v" ;;
  if String.eqb name "vector_circle" then read_circle p nx ny [mu; mv]
  else if String.eqb name "vector_gradient" then read_gradient p nx ny [mu; mv]
  else read_rectangle p nx ny [mu; mv].

Section ShapeSources.
  Variable sqrt : Q -> Q.
  Variable proj : string -> string -> Q -> Q -> Q * Q.
  Definition construct_shape (k : nat) (p : params) (b : boundary) : res (loader * data) :=
    name <- attr_text p "dataloader_name" ;;
    generate <- shape_generator name ;;
    s <- read_shape p name ;;
    ds <- import_shape generate s b ;;
    construct_dataset sqrt proj k p b (["dummy_data"], ds).
  Definition construct_vector_shape (k : nat) (p : params) (b : boundary) : res (loader * data) :=
    name <- attr_text p "dataloader_name" ;;
    generate <- vector_shape_generator name ;;
    s <- read_vector_shape p name ;;
    ds <- import_shape generate s b ;;
    construct_vector_dataset sqrt k p b (["dummy_data_u"; "dummy_data_v"], ds).
End ShapeSources.
