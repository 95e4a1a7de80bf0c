(** What the synthetic sources should hold (C60).  Independent of the model's
    generators. *)
From Coq Require Import Permutation Sorted.
From Verif Require Import Base Geo Cell Loaders Shapes.
Open Scope Q_scope.

(** An axis of n evenly spaced coordinates whose first is a and whose last is b. *)
Definition even_steps (l : list Q) (s : Q) : Prop :=
  forall i, (S i < List.length l)%nat -> nth (S i) l 0 - nth i l 0 == s.
Definition axis_over (a b : Q) (n : Z) (l : list Q) : Prop :=
  Z.of_nat (List.length l) = n /\ nth 0 l 0 == a /\ nth (pred (List.length l)) l 0 == b /\ exists s, even_steps l s.
(** The same without the last point: one more step leads to b. *)
Definition axis_below (a b : Q) (n : Z) (l : list Q) : Prop :=
  Z.of_nat (List.length l) = n /\ nth 0 l 0 == a /\ exists s, even_steps l s /\ nth (pred (List.length l)) l 0 + s == b.

(** The rows are those of the grid, each pair of coordinates once. *)
Definition rows_of_grid (lats longs : list Q) (rows : data) : Prop :=
  List.length rows = (List.length lats * List.length longs)%nat /\
  forall i j, (i < List.length lats)%nat -> (j < List.length longs)%nat ->
    exists p, nth_error rows (i * List.length longs + j) = Some p /\ p_lat p = nth i lats 0 /\ p_long p = nth j longs 0 /\ p_time p = None.

(** The middle of the region, unless a centre is given. *)
Definition centre_wanted (given : option Q) (a b : Q) : Q :=
  match given with Some c => c | None => (a + b) / 2 end.

(** Distance at most r: the square root of a sum of squares is at most r. *)
Definition in_disc (cy cx r lat long : Q) : Prop :=
  0 <= r /\ (long - cx) * (long - cx) + (lat - cy) * (lat - cy) <= r * r.
(** A rectangle of width w and height h. *)
Definition in_rectangle (cy cx w h lat long : Q) : Prop :=
  cx - w / 2 <= long <= cx + w / 2 /\ cy - h / 2 <= lat <= cy + h / 2.

(** The multipliers inside, zeros outside. *)
Definition filled (inside : Q -> Q -> Prop) (mult : list Q) (rows : data) : Prop :=
  forall p, In p rows ->
    (inside (p_lat p) (p_long p) -> p_vals p = map Some mult) /\
    (~ inside (p_lat p) (p_long p) -> p_vals p = map (fun _ => Some 0) mult).

(** Values given by a function of the position. *)
Definition same_value (v : option Q) (w : Q) : Prop := exists q, v = Some q /\ q == w.
Definition valued (f : Q -> Q -> list Q) (rows : data) : Prop :=
  forall p, In p rows -> Forall2 same_value (p_vals p) (f (p_lat p) (p_long p)).
(** Rising from 0 at a to 1 at b. *)
Definition ramp (a b v : Q) : Q := (v - a) / (b - a).

(** The square of a chequered board a coordinate lies in. *)
Definition in_stripe (v0 size : Q) (k : Z) (v : Q) : Prop :=
  v0 + inject_Z k * size <= v < v0 + inject_Z (k + 1) * size.
Definition chequered (lat0 long0 height width m : Q) (rows : data) : Prop :=
  forall p k l, In p rows -> in_stripe lat0 height k (p_lat p) -> in_stripe long0 width l (p_long p) ->
    exists q, p_vals p = [Some q] /\ q == if Z.even (k + l) then 0 else m.

(** A coordinate of the region, at or across the antimeridian. *)
Definition long_in (b : boundary) (x : Q) : Prop :=
  if qltb (long_min b) (long_max b) then long_min b <= x <= long_max b
  else long_min b <= x <= 180 \/ -180 <= x <= long_max b.

(** The centres the code handles as documented: a coordinate other than 0, or none
    on an axis with an odd number of points. *)
Definition centre_given (c : option Q) (n : Z) : Prop :=
  match c with Some q => ~ q == 0 | None => (2 <= n)%Z /\ Z.odd n = true end.

(** The data set a source imports: a frame over the axes and its conversion. *)
Definition imported (generate : shape_params -> boundary -> res grid) (p : shape_params) (b : boundary)
    (axis : Q -> Q -> Z -> list Q -> Prop) (right : data -> Prop) : Prop :=
  exists g ds, generate p b = Ok g /\ axis (lat_min b) (lat_max b) (s_ny p) (g_lat g) /\
    axis (long_min b) (long_max b) (s_nx p) (g_long g) /\
    rows_of_grid (g_lat g) (g_long g) (grid_rows g) /\ right (grid_rows g) /\
    import_shape generate p b = Ok ds /\ Permutation (xr_points ds) (grid_rows g) /\
    StronglySorted (fun x y => fst x <= fst y) (x_lat ds) /\ StronglySorted (fun x y => fst x <= fst y) (x_long ds).
