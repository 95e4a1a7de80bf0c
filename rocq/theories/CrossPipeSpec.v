(** Specification of what a mesh generated over a region that crosses the
    antimeridian holds (C89): PipeSpec.v with places taken on the globe. *)
From Verif Require Import Base Geo Graph Cell Loaders Builder Env Spec MeshSpec GlobeSpec CrossSpec EnvSpec DataSpec PipeSpec.
Open Scope string_scope.
Open Scope Z_scope.

Definition belongs_globe (b : boundary) (p : point) : Prop :=
  mem_globe (region b) (p_long p) (p_lat p) /\ on_date b p.
(** Longitudes as files should write them: the antimeridian as 180. *)
Definition standard_longitudes (d : data) : Prop := forall p, In p d -> (-180 < p_long p <= 180)%Q.

(** ** Values *)
Definition globe_value (sqrt : Q -> Q) (f : feed) (b : boundary) (v : option Q) : Prop :=
  exists pts, selected (belongs_globe b) (f_data f) pts /\ value_xr sqrt (f_agg f) true (column 0 pts) = Ok v.
Inductive globe_filled (sqrt : Q -> Q) (f : feed) : list boundary -> option Q -> Prop :=
| gfilled_own b l q : globe_value sqrt f b (Some q) -> globe_filled sqrt f (b :: l) (Some q)
| gfilled_number b l q : globe_value sqrt f b None -> f_fill f = FillNum q -> globe_filled sqrt f (b :: l) (Some q)
| gfilled_parent b l v : globe_value sqrt f b None -> f_fill f = FillParent -> globe_filled sqrt f l v -> globe_filled sqrt f (b :: l) v
| gfilled_none : f_fill f = FillParent -> globe_filled sqrt f [] None.
Definition globe_written (sqrt : Q -> Q) (fs : list feed) (l : list boundary) (n : string) (o : option jval) : Prop :=
  exists vs, Forall2 (fun f v => globe_filled sqrt f l v) (filter (fun f => String.eqb (f_name f) n) fs) vs /\
    o = match vs with [] => None | _ => Some (JNum (first_known vs)) end.

(** ** Nested bounds *)
(** [a] is a cell of the grid that starts at the south-western corner of [b]. *)
Definition globe_grid_cell (b : boundary) (cw ch : Q) (a : boundary) : Prop :=
  exists i j k : Z,
    (0 <= i /\ 0 <= j) /\
    (x0 (region a) == x0 (region b) + inject_Z i * cw + inject_Z k * 360 /\ x1 (region a) == x0 (region a) + cw /\
     x1 (region a) <= x1 (region b) + inject_Z k * 360 /\
     y0 (region a) == y0 (region b) + inject_Z j * ch /\ y1 (region a) == y0 (region a) + ch /\ y1 (region a) <= y1 (region b))%Q.
(** [a] is a quarter of [a'], wherever on the globe it is written. *)
Definition globe_quarter (q : quad) (a' a : box) : Prop :=
  exists k : Z, quarter q a' (shift (inject_Z k * 360) a).
Inductive globe_nested (b : boundary) (cw ch : Q) : list boundary -> Prop :=
| gnested_grid a : globe_grid_cell b cw ch a -> time_range a = time_range b -> globe_nested b cw ch [a]
| gnested_quarter q a a' l : globe_quarter q (region a') (region a) -> time_range a = time_range b ->
    globe_nested b cw ch (a' :: l) -> globe_nested b cw ch (a :: a' :: l).

(** ** Splitting *)
Definition globe_says_hom (fs : list feed) (b : boundary) (h : hom) : Prop :=
  exists f c pts, In f fs /\ In c (f_conds f) /\ selected (belongs_globe b) (f_data f) pts /\
    h = scalar_hom (f_min f) c (column 0 pts).
Definition globe_ought_to_split (fs : list feed) (b : boundary) : Prop :=
  globe_says_hom fs b HET /\ ~ globe_says_hom fs b HOM /\ ~ globe_says_hom fs b MIN.

(** ** Cells *)
Definition globe_as_configured (sqrt : Q -> Q) (fs : list feed) (b : boundary) (cw ch : Q) (depth : Z) (c : ecell) : Prop :=
  exists l, globe_nested b cw ch (e_bounds c :: l) /\ Z.of_nat (List.length l) <= Z.max 0 depth /\
    (forall b', In b' l -> exists n, globe_ought_to_split (firstn n fs) b') /\
    (Z.of_nat (List.length l) < depth -> ~ globe_ought_to_split fs (e_bounds c)) /\
    (forall n, globe_written sqrt fs (e_bounds c :: l) n (sget (e_data c) n)).

(** The same rectangle of the globe. *)
Definition same_on_globe (b b' : boundary) : Prop :=
  (y0 (region b') == y0 (region b) /\ y1 (region b') == y1 (region b) /\
   exists k : Z, x0 (region b') == x0 (region b) + inject_Z k * 360 /\ x1 (region b') == x1 (region b) + inject_Z k * 360)%Q.
(** A cell as it comes back from the file. *)
Definition same_cell (c c' : ecell) : Prop :=
  e_id c' = e_id c /\ e_data c' = e_data c /\ time_range (e_bounds c') = [] /\ same_on_globe (e_bounds c) (e_bounds c').

(** ** Meshes *)
Definition tiles_globe (whole : box) (cs : list ecell) : Prop :=
  (forall x y, mem_globe whole x y -> exists c, In c cs /\ mem_globe (region (e_bounds c)) x y) /\
  (forall c x y, In c cs -> mem_globe (region (e_bounds c)) x y -> mem_globe whole x y) /\
  (forall c c' x y, In c cs -> In c' cs -> mem_globe (region (e_bounds c)) x y ->
     mem_globe (region (e_bounds c')) x y -> e_id c = e_id c').
(** The graph lists only contacts, each on both sides. *)
Definition lists_only_contacts (R : compass -> box -> box -> Prop) (cs : list ecell) (g : graph) : Prop :=
  NoDup (dkeys g) /\
  (forall k, In k (dkeys g) <-> exists c, k = KS (e_id c) /\ In c cs) /\
  (forall c d, In c cs -> exists l,
     get_neighbours g (KS (e_id c)) (KS (code d)) = Ok l /\ NoDup l /\
     forall z, In z l -> exists c' l', z = e_id c' /\ In c' cs /\
       R d (region (e_bounds c)) (region (e_bounds c')) /\
       get_neighbours g (KS z) (KS (code (opposite d))) = Ok l' /\ In (e_id c) l') /\
  (forall c m, In c cs -> dget_opt g (KS (e_id c)) = Some m ->
     NoDup (dkeys m) /\ forall k, In k (dkeys m) <-> exists d, k = KS (code d)).
