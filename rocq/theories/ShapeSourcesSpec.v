(** Specification of the synthetic shapes as sources: what a configured shape says (C93).
    Shapes are described by ShapeSpec.v. *)
From Coq Require Import Permutation.
From Verif Require Import Base Geo Graph Cell Loaders AddLoader VecLoader Builder Env Spec MeshSpec DataSpec Config ConfigSpec Params ParamSpec PipeSpec SourcesSpec MixSpec VecSourcesSpec Shapes.
From Verif Require ShapeSpec.
Open Scope string_scope.
Open Scope Z_scope.

(** ** Parameters, or their documented defaults *)
Definition number_or (p : params) (k : string) (default q : Q) : Prop :=
  match sget p k with None => q = default | Some j => number j q end.
Definition whole_or (p : params) (k : string) (default z : Z) : Prop :=
  match sget p k with None => z = default | Some j => j = JInt z end.
Definition flag_or (p : params) (k : string) (default v : bool) : Prop :=
  match sget p k with None => v = default | Some j => j = JBool v end.
Definition coordinate (j : json) (c : option Q) : Prop := match c with None => j = JNull | Some q => number j q end.
Definition centre_or (p : params) (cy cx : option Q) : Prop :=
  match sget p "centre" with None => cy = None /\ cx = None | Some v => exists y x, v = JArr [y; x] /\ coordinate y cy /\ coordinate x cx end.
Definition squares_or (p : params) (w h : Q) : Prop :=
  match sget p "gridsize" with None => w = 1%Q /\ h = 1%Q | Some v => exists x y, v = JArr [x; y] /\ number x w /\ number y h end.
(** Parameters that have no default. *)
Definition number_at (p : params) (k : string) (q : Q) : Prop := exists j, sget p k = Some j /\ number j q.
Definition given_centre (p : params) (cy cx : option Q) : Prop := exists y x, sget p "centre" = Some (JArr [y; x]) /\ coordinate y cy /\ coordinate x cx.

(** The rows: an even grid of nx times ny points over the region, with the values wanted. *)
Definition over_region (axis : Q -> Q -> Z -> list Q -> Prop) (b : boundary) (nx ny : Z) (right : data -> Prop) (d : data) : Prop :=
  exists lats longs rows, axis (lat_min b) (lat_max b) ny lats /\ axis (long_min b) (long_max b) nx longs /\
    ShapeSpec.rows_of_grid lats longs rows /\ right rows /\ Permutation d rows.

(** ** Scalar shapes *)
Definition middle (c : option Q) (a b : Q) : Q := ShapeSpec.centre_wanted c a b.
Inductive shape_rows (b : boundary) (p : params) (nx ny : Z) : string -> data -> Prop :=
| sr_circle m r cy cx d : number_or p "multiplier" 1 m -> number_or p "radius" 1 r -> centre_or p cy cx ->
    ShapeSpec.centre_given cy ny -> ShapeSpec.centre_given cx nx ->
    over_region ShapeSpec.axis_over b nx ny
      (ShapeSpec.filled (ShapeSpec.in_disc (middle cy (lat_min b) (lat_max b)) (middle cx (long_min b) (long_max b)) r) [m]) d ->
    shape_rows b p nx ny "circle" d
(** Twice the width and the height configured (C60_rectangle_refuted). *)
| sr_rectangle m w h cy cx d : number_or p "multiplier" 1 m -> number_or p "width" 1 w -> number_at p "height" h -> centre_or p cy cx ->
    ShapeSpec.centre_given cy ny -> ShapeSpec.centre_given cx nx ->
    over_region ShapeSpec.axis_over b nx ny
      (ShapeSpec.filled (ShapeSpec.in_rectangle (middle cy (lat_min b) (lat_max b)) (middle cx (long_min b) (long_max b)) (2 * w) (2 * h)) [m]) d ->
    shape_rows b p nx ny "rectangle" d
| sr_gradient m up d : number_or p "multiplier" 1 m -> flag_or p "vertical" true up ->
    over_region ShapeSpec.axis_over b nx ny
      (ShapeSpec.valued (fun lat long => [((if up then ShapeSpec.ramp (lat_min b) (lat_max b) lat else ShapeSpec.ramp (long_min b) (long_max b) long) * m)%Q])) d ->
    shape_rows b p nx ny "gradient" d
(** For the multiplier 1 (C60_checkerboard_refuted). *)
| sr_checkerboard w h d : number_or p "multiplier" 1 1 -> squares_or p w h -> (0 < w)%Q -> (0 < h)%Q ->
    over_region ShapeSpec.axis_below b nx ny (ShapeSpec.chequered (lat_min b) (long_min b) h w 1) d ->
    shape_rows b p nx ny "checkerboard" d.
Definition resolution (p : params) (nx ny : Z) : Prop := whole_or p "nx" 101 nx /\ whole_or p "ny" 101 ny /\ 2 <= nx /\ 2 <= ny.
Definition unfiled (p : params) : Prop := sget p "file" = None /\ sget p "folder" = None.
Definition shape_feed (b : boundary) (min_dp : Z) (src : string * params) (f : feed) : Prop :=
  exists name nx ny, same_name (fst src) name /\ settled (snd src) min_dp "dummy_data" f /\ unfiled (snd src) /\
    resolution (snd src) nx ny /\ shape_rows b (snd src) nx ny name (f_data f) /\ f_xr f = true.

(** ** Vector shapes: all but the resolution must be given (C42_vector_shape_refuted) *)
Inductive vector_shape_rows (b : boundary) (p : params) (nx ny : Z) (mu mv : Q) : string -> data -> Prop :=
| vr_circle r cy cx d : number_at p "radius" r -> given_centre p cy cx -> ShapeSpec.centre_given cy ny -> ShapeSpec.centre_given cx nx ->
    over_region ShapeSpec.axis_over b nx ny
      (ShapeSpec.filled (ShapeSpec.in_disc (middle cy (lat_min b) (lat_max b)) (middle cx (long_min b) (long_max b)) r) [mu; mv]) d ->
    vector_shape_rows b p nx ny mu mv "vector_circle" d
| vr_rectangle w h cy cx d : number_at p "width" w -> number_at p "height" h -> given_centre p cy cx -> ShapeSpec.centre_given cy ny -> ShapeSpec.centre_given cx nx ->
    over_region ShapeSpec.axis_over b nx ny
      (ShapeSpec.filled (ShapeSpec.in_rectangle (middle cy (lat_min b) (lat_max b)) (middle cx (long_min b) (long_max b)) (2 * w) (2 * h)) [mu; mv]) d ->
    vector_shape_rows b p nx ny mu mv "vector_rectangle" d
| vr_gradient up d : sget p "vertical" = Some (JBool up) ->
    over_region ShapeSpec.axis_over b nx ny
      (ShapeSpec.valued (fun lat long => if up then [0%Q; (ShapeSpec.ramp (lat_min b) (lat_max b) lat * mv)%Q] else [(ShapeSpec.ramp (long_min b) (long_max b) long * mu)%Q; 0%Q])) d ->
    vector_shape_rows b p nx ny mu mv "vector_gradient" d.
Definition vector_shape_feed (b : boundary) (min_dp : Z) (src : string * params) (v : vfeed) : Prop :=
  exists name nx ny mu mv, same_name (fst src) name /\ vector_settled (snd src) min_dp ["dummy_data_u"; "dummy_data_v"] v /\ unfiled (snd src) /\
    resolution (snd src) nx ny /\ number_at (snd src) "multiplier_u" mu /\ number_at (snd src) "multiplier_v" mv /\
    vector_shape_rows b (snd src) nx ny mu mv name (v_data v) /\ v_xr v = true /\ v_conds v = [].

Definition describes_shape (b : boundary) (min_dp : Z) (src : string * params) (s : source) : Prop :=
  match s with Scalar f => shape_feed b min_dp src f | Vector v => vector_shape_feed b min_dp src v end.
