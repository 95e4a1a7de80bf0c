(** What the numbers of a computation in double precision stand for.  Independent of
    the model's functions, except that "after any splits" refers to [f_split]. *)
From Coq Require Import Floats.SpecFloat Qpower.
From Verif Require Import Base Geo Floats FloatGeo.
Open Scope Z_scope.

(** [x] is the double of value [q] *)
Definition double (x : f64) (q : Q) : Prop := valid_binary 53 1024 x = true /\ means x q.
(** [q] is a multiple of 2^-k *)
Definition multiple (k : Z) (q : Q) : Prop := exists z, (q == inject_Z z * Qpower 2 (- k))%Q.
(** the doubles [b] are the exact bounds [e] *)
Definition denotes (b : fboundary) (e : boundary) : Prop :=
  double (flat_min b) (lat_min e) /\ double (flat_max b) (lat_max e) /\
  double (flong_min b) (long_min e) /\ double (flong_max b) (long_max e).
Definition multiples (k : Z) (e : boundary) : Prop :=
  multiple k (lat_min e) /\ multiple k (lat_max e) /\ multiple k (long_min e) /\ multiple k (long_max e).
(** the region lies on the globe *)
Definition on_globe (e : boundary) : Prop :=
  (-180 <= long_min e <= 180 /\ -180 <= long_max e <= 180 /\ -90 <= lat_min e /\ lat_min e <= lat_max e /\ lat_max e <= 90)%Q.
(** [x] comes out of [b] by at most [n] splits *)
Inductive descends : nat -> fboundary -> fboundary -> Prop :=
| de_here n b : descends n b b
| de_split n b l c x : f_split b = Ok l -> In c l -> descends n c x -> descends (S n) b x.
