(** Specification of merging several meshes: meshes stacked on top of each other. *)
From Verif Require Import Base Geo Graph Cell Builder Env Spec MeshSpec EnvSpec.
Open Scope Z_scope.

(** The same rectangle with the same data. *)
Definition same_sight (c c' : ecell) : Prop :=
  region (e_bounds c') = region (e_bounds c) /\
  forall n, n <> "id"%string -> sget (e_data c') n = sget (e_data c) n.
(** [c] is the cell of [m] at the point. *)
Definition seen (m : emesh) (x y : Q) (c : ecell) : Prop := In c (em_cells m) /\ mem (region (e_bounds c)) x y.
Definition covers (m : emesh) (x y : Q) : Prop := mem (region (em_bounds m)) x y.

(** The mesh on top at the point, when [ms] are put on [base] one after another. *)
Definition on_top (base : emesh) (ms : list emesh) (x y : Q) (t : emesh) : Prop :=
  (t = base /\ forall m, In m ms -> ~ covers m x y) \/
  (exists l1 l2, ms = l1 ++ t :: l2 /\ covers t x y /\ forall m, In m l2 -> ~ covers m x y).
(** [m] looks like that stack. *)
Definition stacked (base : emesh) (ms : list emesh) (m : emesh) : Prop :=
  forall x y, covers base x y -> forall t, on_top base ms x y t ->
    exists c c', seen t x y c /\ seen m x y c' /\ same_sight c c'.

Definition aligned_with (m o : emesh) : Prop :=
  grid_aligned (em_bounds m) (c_width (em_config m)) (c_height (em_config m)) (em_bounds o).
Definition disjoint (a b : emesh) : Prop := forall x y, ~ (covers a x y /\ covers b x y).
(** Every cell of the file has each of its names once. *)
Definition proper_file (j : mesh_json) : Prop := forall d, In d (j_cells j) -> NoDup (map fst d).
