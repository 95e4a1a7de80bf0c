(** Specification of the lookup tables. *)
From Verif Require Import Base Geo Cell Loaders Spec Dates DateSpec Lut.
Open Scope Z_scope.

(** The season of a month in the northern or southern hemisphere. *)
Definition is_season (north : bool) (m : Z) (s : season) : Prop :=
  In m match s with
       | Wi => if north then [12; 1; 2] else [6; 7; 8]
       | Sp => if north then [3; 4; 5] else [9; 10; 11]
       | Su => if north then [6; 7; 8] else [12; 1; 2]
       | Au => if north then [9; 10; 11] else [3; 4; 5]
       end.
(** The hemisphere a region lies in. *)
Definition northern (s : shape) : bool := match s with Rect b => qleb 0 (lat_min b) | NorthWithout _ => true end.
(** The points of a region, each edge belonging to the region south or west of it. *)
Definition in_shape (s : shape) (x y : Q) : Prop :=
  match s with
  | Rect b => mem (region b) x y
  | NorthWithout b => (0 < y <= 90 /\ -180 < x <= 180)%Q /\ ~ mem (region b) x y
  end.

(** The rows of a table are those wanted: times, geometries, values. *)
Definition table_is {G} (rows : list (lrow G)) (wanted : Z -> G -> Q -> Prop) : Prop :=
  (forall r, In r rows -> wanted (r_time r) (r_geom r) (r_val r)) /\
  (forall t g v, wanted t g v -> exists r, In r rows /\ r_time r = t /\ r_geom r = g /\ (r_val r == v)%Q).
(** One row for each time and geometry. *)
Definition one_each {G} (rows : list (lrow G)) : Prop := NoDup (map (fun r => (r_time r, r_geom r)) rows).
(** [d] is day [k] of the [n] + 1 days beginning with date [a]. *)
Definition day_of (a : Z * Z * Z) (n k : nat) (y m d : Z) : Prop := (k <= n)%nat /\ days_after k a (y, m, d).
Definition ord_of (a : Z * Z * Z) : Z := let '(y, m, d) := a in ymd2ord y m d.
(** The region's days are those from date [a] to the date [n] days later. *)
Definition days_are (b : boundary) (a : Z * Z * Z) (n : nat) : Prop :=
  exists e, calendar_date a /\ days_after n a e /\ time_range b = [ord_of a; ord_of e] /\
    ymd2ord 1677 9 22 <= ord_of a /\ ord_of e <= ymd2ord 2262 4 11.
(** The part of a shape inside the region. *)
Definition part (o : geometry) (s : shape) (b : boundary) : geom o := g_inter o (g_shape o s) (g_shape o (Rect b)).

(** The northern or southern hemisphere, and the densities of its seasons. *)
Definition half_globe (north : bool) : shape := Rect (if north then mkB 0 90 (-180) 180 [] else mkB (-90) 0 (-180) 180 []).
Definition season_density (s : season) (v : Q) : Prop :=
  (match s with Wi => v == 920 | Sp => v == 900 | Su => v == 875 | Au => v == 900 end)%Q.
Definition density_wanted (o : geometry) (b : boundary) (a : Z * Z * Z) (n : nat) (t : Z) (g : geom o) (v : Q) : Prop :=
  exists k y m d north s, day_of a n k y m d /\ t = ord_of a + Z.of_nat k /\
    g = part o (half_globe north) b /\ usable o g = true /\ is_season north m s /\ season_density s v.
(** [k'] is the day whose value stands at day [k]; right if they are the same. *)
Definition thickness_wanted (right : bool) (o : geometry) (b : boundary) (a : Z * Z * Z) (n : nat) (t : Z) (g : geom o) (v : Q) : Prop :=
  exists r k k' y m d s, In r regions /\ (k <= n)%nat /\ (right = true -> k' = k) /\ day_of a n k' y m d /\ t = ord_of a + Z.of_nat k /\
    g = part o (rg_shape r) b /\ usable o g = true /\ is_season (northern (rg_shape r)) m s /\ (v == rg_values r s)%Q.
(** All the days are in the same season. *)
Definition one_season (a : Z * Z * Z) (n : nat) : Prop :=
  forall north k y m d k' y' m' d' s, day_of a n k y m d -> day_of a n k' y' m' d' -> is_season north m s -> is_season north m' s.
(** Different regions have different parts inside the region. *)
Definition apart (o : geometry) (b : boundary) (ss : list shape) : Prop :=
  forall i j s s', nth_error ss i = Some s -> nth_error ss j = Some s' ->
    part o s b = part o s' b -> usable o (part o s b) = true -> i = j.

(** ** Loader *)
(** The polygons of a geometry. *)
Definition polygons (o : geometry) (g : geom o) : list (geom o) :=
  match g_kind o g with KPolygon => [g] | KMulti => g_parts o g | KOther => [] end.
(** Each row's polygons with the row's value. *)
Definition unpacked (o : geometry) (rows : list (lrow (geom o))) : list (geom o * Q) :=
  flat_map (fun r => map (fun g => (g, r_val r)) (polygons o (r_geom r))) rows.
(** The part of the cell a polygon covers, and the mean weighted with it. *)
Definition weight (o : geometry) (b : boundary) (g : geom o) : Q := g_covered o [g] (g_shape o (Rect b)).
Definition weighted_mean (o : geometry) (b : boundary) (ps : list (geom o * Q)) (v : Q) : Prop :=
  (v * fold_right Qplus 0 (map (fun p => weight o b (fst p)) ps) == fold_right Qplus 0 (map (fun p => weight o b (fst p) * snd p) ps))%Q.
(** The polygons meeting the cell. *)
Definition meeting (o : geometry) (b : boundary) (d : list (geom o * Q)) (p : geom o * Q) : Prop :=
  In p d /\ g_intersects o (fst p) (g_shape o (Rect b)) = true.
