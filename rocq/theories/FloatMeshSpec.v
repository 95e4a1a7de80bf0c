(** Meshes in double precision and the exact meshes they stand for. *)
From Coq Require Import Floats.SpecFloat.
From Verif Require Import Base Geo Graph Cell Builder Spec MeshSpec Floats FloatGeo FloatMesh FloatSpec.
Open Scope Z_scope.

(** Splits in double precision, each of a cell of depth below [n]: what the builder
    does with the configured split depth [n]. *)
Inductive f_splits (n : Z) : fmesh -> fmesh -> Prop :=
| fs_none m : f_splits n m m
| fs_more m m1 m2 i c : f_splits n m m1 -> nth_error (fcells m1) i = Some (Some c) -> fc_depth c < n ->
    f_split_and_replace m1 i = Ok m2 -> f_splits n m m2.
Definition f_live (m : fmesh) (i : nat) (c : fboundary) : Prop := exists d, nth_error (fcells m) i = Some (Some (mkFC c d)).
(** The mesh in doubles is the exact one: same graph, same positions, and every
    bound is the double of the exact number. *)
Definition same_mesh (f : fmesh) (m : mesh) : Prop :=
  fng f = ng m /\ fglob f = glob m /\
  Forall2 (fun o o' => match o, o' with
                       | Some c, Some c' => denotes (fc_bounds c) (cb_bounds c') /\ fc_depth c = cb_depth c'
                       | None, None => True
                       | _, _ => False end) (fcells f) (cells m).
(** [graph_exact] for a mesh in doubles *)
Definition f_graph_exact (R : compass -> box -> box -> Prop) (m : fmesh) : Prop :=
  NoDup (dkeys (fng m)) /\
  (forall k, In k (dkeys (fng m)) <-> exists i c, k = KI (Z.of_nat i) /\ f_live m i c) /\
  (forall i c e d, f_live m i c -> denotes c e -> exists l,
     get_neighbours (fng m) (KI (Z.of_nat i)) (KI (code d)) = Ok l /\ NoDup l /\
     forall z, In z l <-> exists j c' e', z = Z.of_nat j /\ f_live m j c' /\ denotes c' e' /\ R d (region e) (region e')).
