(** Specification of imported data (C69). *)
From Verif Require Import Base Geo Graph Cell Loaders Builder Spec MeshSpec DataSpec ConstructSpec.
Open Scope Q_scope.

(** The same place and time, the longitude in the usual range. *)
Definition moved (p q : point) : Prop :=
  p_lat q = p_lat p /\ p_time q = p_time p /\ (exists k, p_long p == p_long q + 360 * inject_Z k) /\ -180 <= p_long q < 180.
(** The data of a region: every point of the file moved, its values converted, those of
    the region selected; in any order. *)
Definition imported (convert : list (option Q) -> list (option Q)) (b : boundary) (file got : data) : Prop :=
  exists all sel, Forall2 (fun p q => moved p q /\ p_vals q = convert (p_vals p)) file all /\ selected (belongs b) all sel /\ Permutation got sel.
Definition decreasing {I} (axis : list (Q * I)) : Prop :=
  forall i j x y, (i < j)%nat -> nth_error axis i = Some x -> nth_error axis j = Some y -> fst y < fst x.
(** The times of a dataset, if any, are in order and the region has a period. *)
Definition dated (b : boundary) (ds : xrds) : Prop :=
  (forall ts, x_time ds = Some ts -> increasing_z ts) /\ (x_time ds <> None -> exists t0 t1, time_range b = [t0; t1]).
(** The mean of the known values of a list, if there is one. *)
Definition mean_known (l : list (option Q)) (o : option Q) : Prop :=
  match o with
  | None => forall x, In x l -> x = None
  | Some m => (0 < known l)%Z /\ exists s, m * inject_Z (known l) == s /\ s = fold_right (fun x a => match x with Some q => q + a | None => a end) 0 l
  end.
(** An axis in strictly increasing order. *)
Definition strictly {I} (axis : list (Q * I)) : Prop :=
  forall i j x y, (i < j)%nat -> nth_error axis i = Some x -> nth_error axis j = Some y -> fst x < fst y.
Definition same_place (p q : point) : Prop := p_lat p == p_lat q /\ p_long p == p_long q.

(** MODIS: the last value of a point says whether there are clouds. *)
Definition cloudy (p : point) : Prop := exists l c, p_vals p = (l ++ [Some c])%list /\ c == 1.
