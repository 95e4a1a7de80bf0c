(** Specification of data selection: which points belong to a region. *)
From Coq Require Export Permutation.
From Verif Require Import Base Geo Graph Cell Loaders Builder Spec MeshSpec.
Open Scope Z_scope.

(** The point lies in the (half-open) region and, if it is dated, in the period. *)
Definition on_date (b : boundary) (p : point) : Prop :=
  match p_time p with
  | None => True
  | Some t => exists t0 t1, time_range b = [t0; t1] /\ t0 <= t <= t1
  end.
Definition belongs (b : boundary) (p : point) : Prop :=
  mem (region b) (p_long p) (p_lat p) /\ on_date b p.

(** [l'] consists of the members of [l] satisfying P, in the same order and
    multiplicity. *)
Inductive selected {A} (P : A -> Prop) : list A -> list A -> Prop :=
| sel_nil : selected P [] []
| sel_take x l l' : P x -> selected P l l' -> selected P (x :: l) (x :: l')
| sel_skip x l l' : ~ P x -> selected P l l' -> selected P (x :: l) l'.

(** A loader whose trimming selects the points belonging to the bounds, for
    bounds that do not cross the antimeridian. *)
Definition trims_exactly (ld : loader) : Prop :=
  forall b d, (long_min b < long_max b)%Q -> times_ok (time_range b) ->
    selected (belongs b) d (l_trim ld b d).

(** The data subset of a cell's k-th source; all live cells' subsets one after
    the other. *)
Definition subset_of (k : nat) (c : cellbox) : data :=
  match nth_error (cb_sources c) k with Some s => m_subset s | None => [] end.
Definition all_subsets (k : nat) (m : mesh) : data :=
  flat_map (fun o => match o with Some c => subset_of k c | None => [] end) (cells m).

(** Bounds crossing the antimeridian, on the cylinder: east of the western end
    or west of the eastern end. *)
Definition belongs_crossing (b : boundary) (p : point) : Prop :=
  (lat_min b < p_lat p <= lat_max b)%Q /\ (long_min b < p_long p \/ p_long p <= long_max b)%Q /\ on_date b p.

(** An increasing coordinate axis. *)
Definition increasing {I} (axis : list (Q * I)) : Prop :=
  forall i j x y, (i < j)%nat -> nth_error axis i = Some x -> nth_error axis j = Some y -> (fst x <= fst y)%Q.
Definition increasing_z {I} (axis : list (Z * I)) : Prop :=
  forall i j x y, (i < j)%nat -> nth_error axis i = Some x -> nth_error axis j = Some y -> fst x <= fst y.

(** Counting values. *)
Fixpoint known (l : list (option Q)) : Z :=
  match l with [] => 0 | Some _ :: l' => 1 + known l' | None :: l' => known l' end.
Fixpoint over (t : Q) (l : list (option Q)) : Z :=
  match l with
  | [] => 0
  | Some q :: l' => (if Qlt_le_dec t q then 1 else 0) + over t l'
  | None :: l' => over t l'
  end.
(** The fraction of the known values above the threshold, 0 when there are none. *)
Definition fraction_over (t : Q) (l : list (option Q)) : Q :=
  if known l =? 0 then 0%Q else (inject_Z (over t l) / inject_Z (known l))%Q.

(** Equality of results up to equality of rationals. *)
Definition same_value (a b : res (option Q)) : Prop :=
  match a, b with
  | Ok (Some x), Ok (Some y) => (x == y)%Q
  | Ok None, Ok None => True
  | Err e, Err e' => e = e'
  | _, _ => False
  end.

(** The first known value. *)
Fixpoint first_known (l : list (option Q)) : option Q :=
  match l with [] => None | Some q :: _ => Some q | None :: l' => first_known l' end.

(** A source's value in a cell: the cell has a source with the same loader object,
    and the loader aggregates that source's subset to [v] under [name]. *)
Definition value_in (ld : loader) (name : string) (a : cellbox) (v : option Q) : Prop :=
  exists s d, find_source (l_uid ld) (cb_sources a) = Ok s /\
    l_value ld (cb_bounds a) (m_subset s) = Ok d /\ sget d name = Some v.

(** A scalar source as configured: a DataFrame or xarray loader with a documented
    aggregation type, filling missing values from the parent or with a number. *)
Definition df_aggs : list string := ["COUNT"; "MIN"; "MAX"; "MEAN"; "MEDIAN"; "STD"]%string.
Definition scalar_source (s : metadata) : Prop :=
  (exists uid name agg min_dp sqrt, In agg df_aggs /\
     (m_loader s = scalar_df uid name agg min_dp sqrt \/ m_loader s = scalar_xr uid name agg min_dp sqrt)) /\
  (m_fill s = FillParent \/ exists q, m_fill s = FillNum q).
Definition source_name (s : metadata) : string :=
  match l_names (m_loader s) with n :: _ => n | [] => EmptyString end.

(** The value a source's loader gives for a cell's bounds, from its whole data. *)
Definition whole_value (s : metadata) (a : cellbox) : option Q :=
  match l_value (m_loader s) (cb_bounds a) (m_subset s) with
  | Ok d => match sget d (source_name s) with Some v => v | None => None end
  | Err _ => None
  end.
(** That value with missing values filled as configured. *)
Definition filled_value (s : metadata) (c : cellbox) : option Q :=
  match m_fill s with
  | FillNum q => Some (match whole_value s c with Some x => x | None => q end)
  | _ => first_known (map (whole_value s) (c :: ancestors c))
  end.
(** Per name, the first known value among the sources of that name, in order. *)
Definition merged_value (n : string) (srcs : list metadata) (c : cellbox) : option aval :=
  match filter (fun s => String.eqb (source_name s) n) srcs with
  | [] => None
  | l => Some (Num (first_known (map (fun s => filled_value s c) l)))
  end.

(** A vector source as configured, filling missing components from the parent. *)
Definition vector_aggs : list string := ["COUNT"; "MIN"; "MAX"; "MEAN"; "STD"]%string.
Definition vector_source (s : metadata) : Prop :=
  (exists uid names agg min_dp whole sqrt, In agg vector_aggs /\ NoDup names /\ (2 <= List.length names)%nat /\
     m_loader s = vector_df uid names agg min_dp whole sqrt) /\ m_fill s = FillParent.
(** The value of one component in a cell, from the source's whole data. *)
Definition component (s : metadata) (n : string) (a : cellbox) : option Q :=
  match l_value (m_loader s) (cb_bounds a) (l_trim (m_loader s) (cb_bounds a) (m_subset s)) with
  | Ok d => match sget d n with Some v => v | None => None end
  | Err _ => None
  end.
