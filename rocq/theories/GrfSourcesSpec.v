(** Specification of the random fields as sources: what a configured field says (C95).
    Fields are described by GrfSpec.v. *)
From Coq Require Import Permutation.
From Verif Require Import Base Geo Graph Cell Loaders AddLoader VecLoader Builder Env Spec MeshSpec DataSpec Config ConfigSpec Params ParamSpec PipeSpec SourcesSpec MixSpec VecSourcesSpec Shapes ShapeSourcesSpec.
From Verif Require ShapeSpec GrfSpec.
Open Scope string_scope.
Open Scope Z_scope.

(** Seeds and exponents, or their documented defaults. *)
Definition seed_or (p : params) (seed : json) : Prop :=
  (match sget p "seed" with None => seed = JNull | Some j => seed = j end) /\ (seed = JNull \/ exists z, seed = JInt z /\ 0 <= z < 2 ^ 32).
Definition exponent_or (p : params) (alpha : json) : Prop :=
  (match sget p "alpha" with None => alpha = JInt 3 | Some j => alpha = j end) /\ exists q, number alpha q.
Definition field_size (p : params) (size : Z) : Prop := whole_or p "size" 512 size /\ 2 <= size.
Definition thresholds_or (p : params) (t0 t1 : Q) : Prop :=
  match sget p "threshold" with None => t0 = 0%Q /\ t1 = 1%Q | Some v => exists x y, v = JArr [x; y] /\ number x t0 /\ number y t1 end.
(** A generator of noise that is as long as it should be and not the same everywhere. *)
Definition noisy (noise : nat -> nat -> json -> Z -> json -> res (list Q)) : Prop :=
  forall k n seed size alpha q, (seed = JNull \/ exists z, seed = JInt z /\ 0 <= z < 2 ^ 32) -> 2 <= size -> number alpha q ->
    exists l, noise k n seed size alpha = Ok l /\ List.length l = (Z.to_nat size * Z.to_nat size)%nat /\ GrfSpec.uneven l.

(** The values of a field: of a mask, 1 where the noise, scaled from 0 to 1, reaches the
    threshold; of others, the scaled noise limited to the thresholds, again scaled. *)
Inductive field_values (p : params) (noise : list Q) : string -> list (list (option Q)) -> Prop :=
| fv_binary t g vals : sget p "binary" = Some (JBool true) -> number_or p "threshold" (1#2) t -> GrfSpec.rescaled 0 1 noise g ->
    Forall2 (fun y v => ((t <= y)%Q -> v = [Some 1%Q]) /\ ((y < t)%Q -> v = [Some 0%Q])) g vals ->
    field_values p noise "binary_data" vals
| fv_scalar t0 t1 lo hi m a g c s vals : sget p "binary" = Some (JBool false) -> thresholds_or p t0 t1 -> (t0 < t1)%Q -> (t0 < 1)%Q -> (0 < t1)%Q ->
    number_or p "min" (-10) lo -> number_or p "max" 10 hi -> number_or p "multiplier" 1 m -> number_or p "offset" 0 a ->
    GrfSpec.rescaled 0 1 noise g -> Forall2 (GrfSpec.limited t0 t1) g c -> GrfSpec.rescaled lo hi c s ->
    Forall2 (fun x v => exists q, v = [Some q] /\ (q == m * x + a)%Q) s vals ->
    field_values p noise "scalar_data" vals.
(** Of a vector: a magnitude between the least and the greatest, and a part of a turn. *)
Inductive vector_field_values (cos sin : Q -> Q) (p : params) (noise turns : list Q) : list (list (option Q)) -> Prop :=
| vfv lo hi ms ts vals : number_or p "min" 0 lo -> number_or p "max" 10 hi -> GrfSpec.rescaled lo hi noise ms -> GrfSpec.rescaled 0 1 turns ts ->
    List.length vals = List.length ms ->
    (forall i, (i < List.length ms)%nat -> nth i vals [] = [Some (sin (nth i ts 0) * nth i ms 0)%Q; Some (cos (nth i ts 0) * nth i ms 0)%Q]) ->
    vector_field_values cos sin p noise turns vals.
(** On a square grid over the region. *)
Definition spread_out (b : boundary) (size : Z) (vals : list (list (option Q))) (d : data) : Prop :=
  over_region ShapeSpec.axis_over b size size (fun rows => map p_vals rows = vals) d.

Section Fields.
Variables cos sin : Q -> Q.
Variable noise : nat -> nat -> json -> Z -> json -> res (list Q).
Definition field_feed (b : boundary) (min_dp : Z) (src : string * params) (f : feed) : Prop :=
  exists name k seed size alpha l col vals, In name ["scalar_grf"; "binary_grf"] /\ same_name (fst src) name /\ unfiled (snd src) /\
    seed_or (snd src) seed /\ field_size (snd src) size /\ exponent_or (snd src) alpha /\ noise k 0%nat seed size alpha = Ok l /\
    field_values (snd src) l col vals /\ settled (snd src) min_dp col f /\ spread_out b size vals (f_data f) /\ f_xr f = true.
(** The columns of a vector: as configured, or called like the data. *)
Definition columns_or (p : params) (names cols : list string) : Prop :=
  exists x y a c, cols = [x; y] /\ names = [a; c] /\ text_or p "vec_x" a x /\ text_or p "vec_y" c y /\
    x <> y /\ (forall n, In n cols -> no_comma n /\ ~ a_coordinate n).
Definition vector_field_feed (b : boundary) (min_dp : Z) (src : string * params) (v : vfeed) : Prop :=
  exists k seed size alpha l t cols vals, same_name (fst src) "vector_grf" /\ unfiled (snd src) /\
    seed_or (snd src) seed /\ field_size (snd src) size /\ exponent_or (snd src) alpha /\ noise k 0%nat seed size alpha = Ok l /\ noise k 1%nat seed size alpha = Ok t /\
    vector_field_values cos sin (snd src) l t vals /\ vector_settled (snd src) min_dp ["uC"; "vC"] v /\ columns_or (snd src) (v_names v) cols /\
    spread_out b size vals (v_data v) /\ v_xr v = true /\ v_conds v = [].
Definition describes_field (b : boundary) (min_dp : Z) (src : string * params) (s : source) : Prop :=
  match s with Scalar f => field_feed b min_dp src f | Vector v => vector_field_feed b min_dp src v end.
End Fields.
