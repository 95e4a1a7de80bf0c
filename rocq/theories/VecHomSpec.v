(** Specification of the decision of vector sources on splitting. *)
From Verif Require Import Base Geo Cell Loaders DataSpec VecAggSpec.
Open Scope Q_scope.

(** The vector of a point with all its components known. *)
Definition vector_is (p : point) (v : list Q) : Prop := p_vals p = map Some v.
(** The mean vector: of each component, over the points where it is known. *)
Definition mean_vector (pts : data) (n : nat) (m : list Q) : Prop :=
  List.length m = n /\
  forall i q, nth_error m i = Some q ->
    q * inject_Z (known (map (fun p => nth i (p_vals p) None) pts)) == total (map (fun p => nth i (p_vals p) None) pts).
Fixpoint distance2 (v m : list Q) : Q :=
  match v, m with x :: v', y :: m' => (x - y) * (x - y) + distance2 v' m' | _, _ => 0 end.
(** Farther than t from the mean. *)
Definition far (t : Q) (m : list Q) (p : point) : Prop := exists v, vector_is p v /\ (t < 0 \/ t * t < distance2 v m).
(** The answer of a condition: CLR with too few points, or none known; otherwise by the
    share of the known vectors that are far from the mean. *)
Definition vector_answer (min_dp : Z) (c : cond) (n : nat) (pts : data) (h : hom) : Prop :=
  exists m known_pts far_pts, mean_vector pts n m /\
    selected (fun p => exists v, vector_is p v) pts known_pts /\ selected (far (c_threshold c) m) pts far_pts /\
    (((Z.of_nat (List.length pts) < min_dp)%Z \/ known_pts = []) /\ h = CLR \/
     ((min_dp <= Z.of_nat (List.length pts))%Z /\ known_pts <> []) /\
     let f := inject_Z (Z.of_nat (List.length far_pts)) / inject_Z (Z.of_nat (List.length known_pts)) in
     (f <= c_lower c /\ h = CLR \/
      (c_lower c < f /\ c_upper c <= f) /\ h = (if c_lock c then HOM else CLR) \/
      (c_lower c < f /\ f < c_upper c) /\ h = HET)).
