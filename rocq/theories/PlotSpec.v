(** Specification of the plots (C83). *)
From Coq Require Import String.
From Verif Require Import Base Geo Cell Env Export ExportSpec.
Open Scope Z_scope.

(** The cell holds the number [q] under the name [n]; it holds NaN. *)
Definition holds (c : xcell) (n : string) (q : Q) : Prop := sget (x_data c) n = Some (XNum (Fin q)).
Definition unknown (c : xcell) (n : string) : Prop := sget (x_data c) n = Some (XNum NaN).
(** The least and the greatest number held. *)
Definition least (cs : list xcell) (n : string) (lo : Q) : Prop :=
  (exists c, In c cs /\ holds c n lo) /\ forall c q, In c cs -> holds c n q -> (lo <= q)%Q.
Definition greatest (cs : list xcell) (n : string) (hi : Q) : Prop :=
  (exists c, In c cs /\ holds c n hi) /\ forall c q, In c cs -> holds c n q -> (q <= hi)%Q.
(** The range from [lo] to [hi] in [m] equal parts, each with its lower end, the last also
    with its upper end: [v] lies in part [k]. *)
Definition in_part (m : Z) (lo hi v : Q) (k : Z) : Prop :=
  0 <= k < m /\ (inject_Z k * (hi - lo) <= (v - lo) * inject_Z m)%Q /\
  ((v - lo) * inject_Z m < (inject_Z k + 1) * (hi - lo) \/ v == hi /\ k = (m - 1)%Z)%Q.
(** The members of a list with a property, in order. *)
Inductive selection {A} (P : A -> Prop) : list A -> list A -> Prop :=
| sel_nil : selection P [] []
| sel_take a l s : P a -> selection P l s -> selection P (a :: l) (a :: s)
| sel_skip a l s : ~ P a -> selection P l s -> selection P (a :: l) s.
(** The flag [n] is set, or the number 1. *)
Definition counts_as_set (n : string) (c : xcell) : Prop :=
  sget (x_data c) n = Some (XBool true) \/ exists q, holds c n q /\ (q == 1)%Q.
