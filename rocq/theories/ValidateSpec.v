(** Specification of the mesh validators. *)
From Verif Require Import Base Geo Graph Cell Loaders Builder Env Spec MeshSpec EnvSpec.
Open Scope Z_scope.

(** The rectangle with its edges. *)
Definition closed (b : box) (x y : Q) : Prop := (x0 b <= x <= x1 b /\ y0 b <= y <= y1 b)%Q.
(** The point is on no edge of any of the cells. *)
Definition off_edges (cs : list ecell) (p : point) : Prop :=
  forall c, In c cs -> closed (region (e_bounds c)) (p_long p) (p_lat p) -> interior (region (e_bounds c)) (p_long p) (p_lat p).
Definition plane_cells (cs : list ecell) : Prop := NoDup (map e_id cs) /\ forall c, In c cs -> plane_bounds (e_bounds c).
(** The number a cell holds under a name. *)
Definition holds_num (c : ecell) (name : string) (v : Q) : Prop := sget (e_data c) name = Some (JNum (Some v)).
(** [e] is the distance between source value [x] and cell value [y] (NaN if the
    source value is). *)
Definition error_is (e x : option Q) (y : Q) : Prop :=
  match e, x with
  | Some e, Some x => (x <= y /\ e == y - x \/ y <= x /\ e == x - y)%Q
  | None, None => True
  | _, _ => False
  end.


(** The mean of the numbers among the values; none if there are none. *)
Fixpoint known_sum (l : list (option Q)) : Q := match l with [] => 0%Q | Some q :: l => (q + known_sum l)%Q | None :: l => known_sum l end.
Fixpoint known_count (l : list (option Q)) : nat := match l with [] => 0%nat | Some _ :: l => S (known_count l) | None :: l => known_count l end.
Definition mean_is (l : list (option Q)) (m : option Q) : Prop :=
  match m with
  | Some m => (0 < known_count l)%nat /\ (m * inject_Z (Z.of_nat (known_count l)) == known_sum l)%Q
  | None => known_count l = 0%nat
  end.
(** [d] is the squared distance between the vectors (x, y) and (a, b), if x and y are known. *)
Definition distance2_is (d x y : option Q) (a b : Q) : Prop :=
  match x, y with
  | Some x, Some y => exists d', d = Some d' /\ (d' == (x - a) * (x - a) + (y - b) * (y - b))%Q
  | _, _ => d = None
  end.
