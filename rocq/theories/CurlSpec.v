(** Specification of the curl of a field of vectors on a grid (C64). *)
From Coq Require Import Sorting.Sorted.
From Verif Require Import Base Cell.
Open Scope Q_scope.

(** The difference of two values, missing if one of them is. *)
Inductive diff : option Q -> option Q -> option Q -> Prop :=
| diff_known a b c : c == a - b -> diff (Some a) (Some b) (Some c)
| diff_left b : diff None b None
| diff_right a : diff a None None.
Inductive total : option Q -> option Q -> option Q -> Prop :=
| total_known a b c : c == a + b -> total (Some a) (Some b) (Some c)
| total_left b : total None b None
| total_right a : total a None None.
Inductive half_of : option Q -> option Q -> Prop :=
| half_known a c : c == a / 2 -> half_of (Some a) (Some c)
| half_none : half_of None None.
(** The slope of [f] per step at the [i]-th of [n] points. *)
Inductive slope (n : nat) (f : nat -> option Q) : nat -> option Q -> Prop :=
| slope_first s : diff (f 1%nat) (f 0%nat) s -> slope n f 0 s
| slope_last i s : n = S (S i) -> diff (f (S i)) (f i) s -> slope n f (S i) s
| slope_inside i d s : (S (S i) < n)%nat -> diff (f (S (S i))) (f i) d -> half_of d s -> slope n f (S i) s.
(** The curl dv/dx - du/dy of the field (u, v) on [nx] by [ny] points, [x] eastwards and
    [y] northwards. *)
Definition curl_at (nx ny : nat) (u v : nat -> nat -> option Q) (x y : nat) (c : option Q) : Prop :=
  exists vx uy, slope nx (fun k => v k y) x vx /\ slope ny (fun k => u x k) y uy /\ diff vx uy c.
Definition divergence_at (nx ny : nat) (u v : nat -> nat -> option Q) (x y : nat) (c : option Q) : Prop :=
  exists ux vy, slope nx (fun k => u k y) x ux /\ slope ny (fun k => v x k) y vy /\ total ux vy c.
(** The points of a grid at a time (None without a time column), each with its vector. *)
Definition grid_points (t : option Z) (longs lats : list Q) (u v : nat -> nat -> option Q) : list point :=
  flat_map (fun x => map (fun y => mkP (nth y lats 0) (nth x longs 0) t [u x y; v x y]) (seq 0 (List.length lats)))
           (seq 0 (List.length longs)).
Definition increasing (l : list Q) : Prop := StronglySorted Qlt l.
Definition magnitude_le (a b : Q) : Prop := a * a <= b * b.
