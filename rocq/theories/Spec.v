(** Independent specifications: rectangles in the plane, the eight ways two of
    them can touch, and tilings.  Nothing here refers to the model's functions
    (only [region] reads the fields of a Boundary). *)
From Verif Require Import Base Geo.
Open Scope Q_scope.

(** An axis-parallel rectangle: x is longitude (east), y latitude (north). *)
Record box := Box { x0 : Q; x1 : Q; y0 : Q; y1 : Q }.
Definition proper (b : box) : Prop := x0 b < x1 b /\ y0 b < y1 b.

(** The rectangle denoted by a Boundary; a range whose end is not east of its
    start continues past the antimeridian. *)
Definition region (b : boundary) : box :=
  Box (long_min b)
      (if qltb (long_min b) (long_max b) then long_max b else long_max b + 360)
      (lat_min b) (lat_max b).

Definition shift (dx : Q) (b : box) : box := Box (x0 b + dx) (x1 b + dx) (y0 b) (y1 b).

Inductive compass := dNE | dE | dSE | dS | dSW | dW | dNW | dN.
Definition all_dirs : list compass := [dNE; dE; dSE; dS; dSW; dW; dNW; dN].

(** The documented encoding of directions as ints (direction.py). *)
Definition code (d : compass) : Z :=
  match d with
  | dNE => 1 | dE => 2 | dSE => 3 | dS => 4
  | dSW => -1 | dW => -2 | dNW => -3 | dN => -4
  end%Z.
Definition opposite (d : compass) : compass :=
  match d with
  | dNE => dSW | dE => dW | dSE => dNW | dS => dN
  | dSW => dNE | dW => dE | dNW => dSE | dN => dS
  end.

(** The open y- (x-) extents of two boxes have a common point. *)
Definition y_overlap (a b : box) : Prop := exists y, y0 a < y < y1 a /\ y0 b < y < y1 b.
Definition x_overlap (a b : box) : Prop := exists x, x0 a < x < x1 a /\ x0 b < x < x1 b.

(** [touches d a b]: b lies directly against side or corner d of a. *)
Definition touches (d : compass) (a b : box) : Prop :=
  match d with
  | dE  => x1 a == x0 b /\ y_overlap a b
  | dW  => x0 a == x1 b /\ y_overlap a b
  | dN  => y1 a == y0 b /\ x_overlap a b
  | dS  => y0 a == y1 b /\ x_overlap a b
  | dNE => x1 a == x0 b /\ y1 a == y0 b
  | dSE => x1 a == x0 b /\ y0 a == y1 b
  | dSW => x0 a == x1 b /\ y0 a == y1 b
  | dNW => x0 a == x1 b /\ y1 a == y0 b
  end.

(** Contact on the cylinder (longitude modulo 360). *)
Definition touches_mod (d : compass) (a b : box) : Prop :=
  exists k : Z, touches d a (shift (inject_Z k * 360) b).

(** Interiors do not meet. *)
Definition apart (a b : box) : Prop :=
  forall x y, ~ ((x0 a < x < x1 a /\ y0 a < y < y1 a) /\ (x0 b < x < x1 b /\ y0 b < y < y1 b)).

(** Half-open membership: west and south edges excluded, east and north edges
    included (the convention documented for data trimming). *)
Definition mem (b : box) (x y : Q) : Prop := x0 b < x <= x1 b /\ y0 b < y <= y1 b.
Definition area (b : box) : Q := (x1 b - x0 b) * (y1 b - y0 b).

(** A finite family of boxes tiles [whole]: every point of [whole] is in exactly
    one member, and members do not reach outside. *)
Definition tiles {I} (whole : box) (live : I -> Prop) (bx : I -> box) : Prop :=
  (forall x y, mem whole x y -> exists i, live i /\ mem (bx i) x y) /\
  (forall i x y, live i -> mem (bx i) x y -> mem whole x y) /\
  (forall i j x y, live i -> live j -> mem (bx i) x y -> mem (bx j) x y -> i = j).

(** The quarters of a box. *)
(** Which quarter. *)
Inductive quad := qNW | qNE | qSW | qSE.

Definition xmid (c : box) : Q := (x0 c + x1 c) * (1#2).
Definition ymid (c : box) : Q := (y0 c + y1 c) * (1#2).

(** [x] is quarter [q] of [c] (up to equality of rationals). *)
Definition quarter (q : quad) (c x : box) : Prop :=
  match q with
  | qNW => x0 x == x0 c /\ x1 x == xmid c /\ y0 x == ymid c /\ y1 x == y1 c
  | qNE => x0 x == xmid c /\ x1 x == x1 c /\ y0 x == ymid c /\ y1 x == y1 c
  | qSW => x0 x == x0 c /\ x1 x == xmid c /\ y0 x == y0 c /\ y1 x == ymid c
  | qSE => x0 x == xmid c /\ x1 x == x1 c /\ y0 x == y0 c /\ y1 x == ymid c
  end.
