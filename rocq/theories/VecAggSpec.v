(** Specification of the aggregation of vectors (C70). *)
From Verif Require Import Base Geo Cell Loaders Builder.
Open Scope Q_scope.

(** The squared length of a vector all of whose components are known. *)
Fixpoint length2 (v : list (option Q)) (m : Q) : Prop :=
  match v with
  | [] => m == 0
  | Some x :: v' => exists m', length2 v' m' /\ m == x * x + m'
  | None :: _ => False
  end.
Definition complete (p : point) : Prop := ~ In None (p_vals p).
(** The first row whose vector is shortest (longest) among those known. *)
Definition first_extreme (better : Q -> Q -> Prop) (d : data) (p : point) : Prop :=
  exists d1 d2 m, d = (d1 ++ p :: d2)%list /\ length2 (p_vals p) m /\
    (forall q m', In q d1 -> length2 (p_vals q) m' -> better m m') /\
    (forall q m', In q d2 -> length2 (p_vals q) m' -> ~ better m' m).
Definition shorter (a b : Q) : Prop := a < b.
Definition longer (a b : Q) : Prop := b < a.
(** The mean of known values. *)
Fixpoint total (l : list (option Q)) : Q := match l with [] => 0 | Some x :: l' => x + total l' | None :: l' => total l' end.
Fixpoint deviation (m : Q) (l : list (option Q)) : Q :=
  match l with [] => 0 | Some x :: l' => (x - m) * (x - m) + deviation m l' | None :: l' => deviation m l' end.
