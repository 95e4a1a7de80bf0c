(** Specification of reprojected data (C72). *)
From Verif Require Import Base Cell Loaders MeshSpec DataSpec Reproject.
Open Scope Q_scope.

Definition entry_at (t : dframe) (k : nat) (c : string) (e : entry) : Prop := exists l, In (c, l) t /\ nth_error l k = Some e.
(** A table of [n] rows with distinct columns. *)
Definition well_formed (n : nat) (t : dframe) : Prop := NoDup (map fst t) /\ forall c l, In (c, l) t -> List.length l = n.

(** Every row keeps its place in the table and its values, and lies where the projection
    puts it; the columns of the old coordinates are gone. *)
Record reprojected (proj : Q -> Q -> Q * Q) (x_col y_col : string) (n : nat) (t t' : dframe) : Prop := {
  rp_form : well_formed n t';
  rp_columns : forall c, In c (map fst t') <-> c = "lat"%string \/ c = "long"%string \/ (In c (map fst t) /\ c <> x_col /\ c <> y_col);
  rp_place : forall k x y, entry_at t k x_col (ENum (Some x)) -> entry_at t k y_col (ENum (Some y)) ->
    entry_at t' k "long" (ENum (Some (fst (proj x y)))) /\ entry_at t' k "lat" (ENum (Some (snd (proj x y))));
  rp_values : forall k c e, ~ In c ["lat"; "long"; x_col; y_col]%string -> (entry_at t k c e <-> entry_at t' k c e) }.

(** The point where the projection puts a point. *)
Definition moved (proj : Q -> Q -> Q * Q) (p q : point) : Prop :=
  p_long q = fst (proj (p_long p) (p_lat p)) /\ p_lat q = snd (proj (p_long p) (p_lat p)) /\ p_time q = p_time p /\ p_vals q = p_vals p.

(** Names that cannot be confused. *)
Definition free_names (x_name y_name : string) (vars : list string) : Prop :=
  x_name <> y_name /\ x_name <> "time"%string /\ y_name <> "time"%string /\ NoDup vars /\
  forall v, In v vars -> ~ In v ["lat"; "long"; "time"; x_name; y_name]%string.

(** The known values of the files of the period, where they are. *)
Definition amsr_point (proj : Q -> Q -> Q * Q) (t0 t1 : Z) (ys xs : list (Q * nat)) (files : list amsr_file) (p : point) : Prop :=
  exists day values y i x j v, In (day, values) files /\ (t0 <= day <= t1)%Z /\ In (y, i) ys /\ In (x, j) xs /\
    values i j = Some v /\ p = mkP (snd (proj x y)) (fst (proj x y)) (Some day) [Some v].
