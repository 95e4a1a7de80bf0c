(** Model of the data loaders' trimming, aggregation and homogeneity functions:
    meshiphi/dataloaders/scalar/abstract_scalar.py and
    meshiphi/dataloaders/vector/abstract_vector.py.  No proofs here.

    A DataFrame is the list of its rows ([point]); a column is the list of the
    values of its rows, None for NaN.  An xarray Dataset is given by its axes.
    Dates are day ordinals; comparing ISO dates is comparing ordinals. *)
From Verif Require Import Base Geo Cell.
Open Scope Z_scope.

(** ** Trimming *)

(** abstract_scalar.py 268-276 = abstract_vector.py 322-331: the spatial mask. *)
Definition df_spatial (b : boundary) (p : point) : bool :=
  if qltb (long_min b) (long_max b) then
    qltb (lat_min b) (p_lat p) && qleb (p_lat p) (lat_max b) &&
    qltb (long_min b) (p_long p) && qleb (p_long p) (long_max b)
  else
    qltb (lat_min b) (p_lat p) && qleb (p_lat p) (lat_max b) &&
    qleb (p_long p) (long_min b) && qltb (long_max b) (p_long p).

(** abstract_scalar.py 278-280: the time mask; without a time column everything
    passes.  A time column with an empty time range raises IndexError
    ([time_range[0]]); here no row passes. *)
Definition in_time (b : boundary) (p : point) : bool :=
  match p_time p with
  | None => true
  | Some t => match time_range b with
              | t0 :: t1 :: _ => (t0 <=? t) && (t <=? t1)
              | _ => false
              end
  end.

(** abstract_scalar.py 248-283 [trim_datapoints_from_df] *)
Definition df_trim (b : boundary) (d : data) : data :=
  filter (fun p => df_spatial b p && in_time b p) d.

(** An xarray Dataset: each axis lists its coordinate values together with their
    index into the data variables; [x_val] gives the data variables' values. *)
Record xrds := mkXr {
  x_lat : list (Q * nat); x_long : list (Q * nat); x_time : option (list (Z * nat));
  x_val : nat -> nat -> nat -> list (option Q) }.

(** The rows of the Dataset: one per combination of coordinates. *)
Definition xr_points (ds : xrds) : data :=
  flat_map (fun la => flat_map (fun lo =>
    match x_time ds with
    | None => [mkP (fst la) (fst lo) None (x_val ds (snd la) (snd lo) 0%nat)]
    | Some ts => map (fun t => mkP (fst la) (fst lo) (Some (fst t)) (x_val ds (snd la) (snd lo) (snd t))) ts
    end) (x_long ds)) (x_lat ds).

Fixpoint monotone {A} (le : A -> A -> bool) (l : list A) : bool :=
  match l with
  | [] => true
  | x :: l' => match l' with [] => true | y :: _ => le x y && monotone le l' end
  end.

(** [ds.sel(axis=slice(lo, hi))] on a monotonic index (pandas semantics): all
    labels between lo and hi, in index order; on a decreasing index lo has to be
    the larger end.  A non-monotonic index raises KeyError. *)
Definition sel_slice {A I} (le : A -> A -> bool) (lo hi : A) (axis : list (A * I)) : res (list (A * I)) :=
  if monotone le (map fst axis) then Ok (filter (fun x => le lo (fst x) && le (fst x) hi) axis)
  else if monotone (fun x y => le y x) (map fst axis) then Ok (filter (fun x => le hi (fst x) && le (fst x) lo) axis)
  else Err KeyError.

(** abstract_scalar.py 285-323 [trim_datapoints_from_xr] (abstract_vector.py
    340-364).  [where(axis != v, drop=True)] drops the entries equal to v. *)
Definition xr_trim (b : boundary) (ds : xrds) : res xrds :=
  lat <- sel_slice qleb (lat_min b) (lat_max b) (x_lat ds) ;;
  long <- (if qltb (long_min b) (long_max b) then sel_slice qleb (long_min b) (long_max b) (x_long ds)
           else lhs <- sel_slice qleb (-180)%Q (long_max b) (x_long ds) ;;
                rhs <- sel_slice qleb (long_min b) 180%Q (x_long ds) ;;
                Ok (lhs ++ rhs)) ;;
  time <- match x_time ds with
          | None => Ok None
          | Some ts => match time_range b with
                       | t0 :: t1 :: _ => ts' <- sel_slice Z.leb t0 t1 ts ;; Ok (Some ts')
                       | _ => Err IndexError
                       end
          end ;;
  let lat := filter (fun x => negb (qeqb (fst x) (lat_min b))) lat in
  let long := filter (fun x => negb (qeqb (fst x) (long_min b))) long in
  Ok (mkXr lat long time (x_val ds)).

(** The effect of [xr_trim] on single rows (XrProofs.v proves that [xr_trim] of a
    Dataset with increasing axes keeps exactly these rows). *)
Definition xr_spatial (b : boundary) (p : point) : bool :=
  qleb (lat_min b) (p_lat p) && qleb (p_lat p) (lat_max b) && negb (qeqb (p_lat p) (lat_min b)) &&
  (if qltb (long_min b) (long_max b) then qleb (long_min b) (p_long p) && qleb (p_long p) (long_max b)
   else (qleb (-180) (p_long p) && qleb (p_long p) (long_max b)) ||
        (qleb (long_min b) (p_long p) && qleb (p_long p) 180)) &&
  negb (qeqb (p_long p) (long_min b)).
Definition xr_trim_rows (b : boundary) (d : data) : data :=
  filter (fun p => xr_spatial b p && in_time b p) d.

(** ** Aggregation *)

(** [s.dropna()] *)
Definition drop_nan (l : list (option Q)) : list Q :=
  flat_map (fun v => match v with Some q => [q] | None => [] end) l.
Definition has_nan (l : list (option Q)) : bool := existsb (fun v => match v with None => true | _ => false end) l.
Definition qlen {A} (l : list A) : Q := inject_Z (Z.of_nat (List.length l)).
Definition qsum (l : list Q) : Q := fold_right Qplus 0%Q l.
Definition qmean (l : list Q) : Q := (qsum l / qlen l)%Q.
(** [min(l)], [max(l)]: the first extreme element. *)
Definition qmin2 (a b : Q) : Q := if qltb b a then b else a.
Definition qmax2 (a b : Q) : Q := if qltb a b then b else a.
Definition qmin_list (l : list Q) : Q := match l with [] => 0%Q | x :: l' => fold_left qmin2 l' x end.
Definition qmax_list (l : list Q) : Q := match l with [] => 0%Q | x :: l' => fold_left qmax2 l' x end.
(** sorting *)
Fixpoint qinsert (x : Q) (l : list Q) : list Q :=
  match l with
  | [] => [x]
  | y :: l' => if qleb x y then x :: y :: l' else y :: qinsert x l'
  end.
Definition qsort (l : list Q) : list Q := fold_right qinsert [] l.
(** The middle element, or the mean of the two middle elements. *)
Definition qmedian (l : list Q) : Q :=
  let s := qsort l in
  let n := List.length l in
  if Nat.even n then ((nth (Nat.div n 2 - 1) s 0 + nth (Nat.div n 2) s 0) / 2)%Q
  else nth (Nat.div n 2) s 0%Q.
(** Sum of squared deviations. *)
Definition sq_dev (l : list Q) : Q := qsum (map (fun x => (x - qmean l) * (x - qmean l))%Q l).

(** A reduction that returns NaN when a NaN is present and NaN is not skipped. *)
Definition reduce (skipna : bool) (f : list Q -> option Q) (l : list (option Q)) : option Q :=
  if skipna then f (drop_nan l) else if has_nan l then None else f (drop_nan l).

Definition all_nan (l : list (option Q)) : bool := forallb (fun v => match v with None => true | _ => false end) l.

(** abstract_scalar.py 354-397 [get_value_from_df].  [sqrt] is the square root
    (any function: the theorems quantify over it).  pandas' std divides by n-1
    and is NaN for n = 1. *)
Definition value_df (sqrt : Q -> Q) (agg_type : string) (skipna : bool) (dps : list (option Q)) : res (option Q) :=
  let dps := if skipna then map Some (drop_nan dps) else dps in
  if String.eqb agg_type "COUNT" then Ok (Some (qlen dps))
  else if Nat.eqb (List.length dps) 0 then Ok None
  else if all_nan dps then Ok None
  else if String.eqb agg_type "MIN" then Ok (reduce skipna (fun l => Some (qmin_list l)) dps)
  else if String.eqb agg_type "MAX" then Ok (reduce skipna (fun l => Some (qmax_list l)) dps)
  else if String.eqb agg_type "MEAN" then Ok (reduce skipna (fun l => Some (qmean l)) dps)
  else if String.eqb agg_type "MEDIAN" then Ok (reduce skipna (fun l => Some (qmedian l)) dps)
  else if String.eqb agg_type "STD" then
    Ok (reduce skipna (fun l => if Nat.eqb (List.length l) 1 then None
                                else Some (sqrt (sq_dev l / (qlen l - 1))%Q)) dps)
  else Err ValueError.

(** abstract_scalar.py 400-451 [get_value_from_xr]: numpy's std divides by n;
    COUNT is the size of the array, NaN included. *)
Definition value_xr (sqrt : Q -> Q) (agg_type : string) (skipna : bool) (dps : list (option Q)) : res (option Q) :=
  if String.eqb agg_type "COUNT" then Ok (Some (qlen dps))
  else if Nat.eqb (List.length dps) 0 then Ok None
  else if all_nan dps then Ok None
  else if String.eqb agg_type "MIN" then Ok (reduce skipna (fun l => Some (qmin_list l)) dps)
  else if String.eqb agg_type "MAX" then Ok (reduce skipna (fun l => Some (qmax_list l)) dps)
  else if String.eqb agg_type "MEAN" then Ok (reduce skipna (fun l => Some (qmean l)) dps)
  else if String.eqb agg_type "MEDIAN" then Ok (reduce skipna (fun l => Some (qmedian l)) dps)
  else if String.eqb agg_type "STD" then Ok (reduce skipna (fun l => Some (sqrt (sq_dev l / qlen l)%Q)) dps)
  else if String.eqb agg_type "RMSE" then Ok (reduce skipna (fun l => Some (sqrt (sq_dev l / qlen l)%Q)) dps)
  else Err ValueError.

(** [data[name]] for the i-th data column. *)
Definition column (i : nat) (d : data) : list (option Q) := map (fun p => nth i (p_vals p) None) d.

(** abstract_scalar.py 334-466 [get_value], with the data set passed in. *)
Definition scalar_value_df (sqrt : Q -> Q) (agg_type name : string) (b : boundary) (d : data) : res (sdict (option Q)) :=
  v <- value_df sqrt agg_type true (column 0 (df_trim b d)) ;; Ok [(name, v)].
Definition scalar_value_xr (sqrt : Q -> Q) (agg_type name : string) (b : boundary) (d : data) : res (sdict (option Q)) :=
  v <- value_xr sqrt agg_type true (column 0 (xr_trim_rows b d)) ;; Ok [(name, v)].

(** ** Homogeneity *)

(** abstract_scalar.py 520-527 / 558-564: fraction of the non-NaN values over the
    threshold. *)
Definition frac_over (t : Q) (dps : list (option Q)) : Q :=
  let vs := drop_nan dps in
  match vs with
  | [] => 0%Q
  | _ => (qlen (filter (qltb t) vs) / qlen vs)%Q
  end.
(** abstract_scalar.py 529-536 *)
Definition classify (c : cond) (frac : Q) : hom :=
  if qleb frac (c_lower c) then CLR
  else if qleb (c_upper c) frac then (if c_lock c then HOM else CLR)
  else HET.
(** abstract_scalar.py 500-578 ([from_df] and [from_xr] agree: [len(dps)] and
    [dps.size] both count NaN rows). *)
Definition scalar_hom (min_dp : Z) (c : cond) (dps : list (option Q)) : hom :=
  if Z.of_nat (List.length dps) <? min_dp then CLR else classify c (frac_over (c_threshold c) dps).

(** The scalar loaders as the mesh sees them.  [get_hom_condition] with a data set
    passed in does not trim it again (585-588); [get_value] does (456). *)
Definition scalar_df (uid : Z) (name agg_type : string) (min_dp : Z) (sqrt : Q -> Q) : loader :=
  mkLoader uid [name] df_trim (fun _ c d => scalar_hom min_dp c (column 0 d)) (scalar_value_df sqrt agg_type name).
Definition scalar_xr (uid : Z) (name agg_type : string) (min_dp : Z) (sqrt : Q -> Q) : loader :=
  mkLoader uid [name] xr_trim_rows (fun _ c d => scalar_hom min_dp c (column 0 d)) (scalar_value_xr sqrt agg_type name).

(** ** Vector loaders *)

(** Squared magnitude of the vector of a row; NaN if a component is NaN. *)
Definition mag2 (p : point) : option Q :=
  fold_right (fun v acc => match v, acc with Some x, Some a => Some (x * x + a)%Q | _, _ => None end)
             (Some 0%Q) (p_vals p).

(** [idxmin]/[idxmax] of the magnitude over the rows with a magnitude (first
    extreme row); comparing squared magnitudes is comparing magnitudes. *)
Fixpoint arg_extreme (better : Q -> Q -> bool) (cur : option (point * Q)) (d : data) : option (point * Q) :=
  match d with
  | [] => cur
  | p :: d' =>
      match mag2 p with
      | None => arg_extreme better cur d'
      | Some m => match cur with
                  | None => arg_extreme better (Some (p, m)) d'
                  | Some (_, m0) => arg_extreme better (if better m m0 then Some (p, m) else cur) d'
                  end
      end
  end.

(** abstract_vector.py 405-451 [get_value_from_df] with skipna=True.  No rows give
    two NaNs whatever the aggregation type; COUNT counts the rows; MIN and MAX
    return the vector of the row of extreme magnitude. *)
Definition vector_values_df (sqrt : Q -> Q) (agg_type : string) (n : nat) (d : data) : res (list (option Q)) :=
  let cols f := map (fun i => f (drop_nan (column i d))) (seq 0 n) in
  let extreme better := match arg_extreme better None d with
                        | Some (p, _) => map (fun i => nth i (p_vals p) None) (seq 0 n)
                        | None => map (fun _ => None) (seq 0 n)
                        end in
  if Nat.eqb (List.length d) 0 then Ok (map (fun _ => None) (seq 0 n))
  else if String.eqb agg_type "COUNT" then Ok (map (fun _ => Some (qlen d)) (seq 0 n))
  else if String.eqb agg_type "MIN" then Ok (extreme qltb)
  else if String.eqb agg_type "MAX" then Ok (extreme (fun a b => qltb b a))
  else if String.eqb agg_type "MEAN" then
    Ok (cols (fun l => match l with [] => None | _ => Some (qmean l) end))
  else if String.eqb agg_type "STD" then
    Ok (cols (fun l => if Nat.leb (List.length l) 1 then None else Some (sqrt (sq_dev l / (qlen l - 1))%Q)))
  else Err ValueError.

(** abstract_vector.py 503-525: a data set passed in is not trimmed again. *)
Definition vector_value_df (sqrt : Q -> Q) (agg_type : string) (names : list string) (d : data) : res (sdict (option Q)) :=
  vs <- vector_values_df sqrt agg_type (List.length names) d ;; Ok (combine names vs).

(** abstract_vector.py 983-1034 [calc_dmag] with collapse=False, squared: the
    squared distance of each row's vector to the mean vector. *)
Definition dmag2 (means : list (option Q)) (p : point) : option Q :=
  fold_right (fun vm acc => match vm, acc with
                            | (Some x, Some m), Some a => Some ((x - m) * (x - m) + a)%Q
                            | _, _ => None
                            end) (Some 0%Q) (combine (p_vals p) means).
(** [norm > t] for a norm given by its square. *)
Definition norm_over (t : Q) (sq : Q) : bool := qltb t 0 || qltb (t * t) sq.

(** abstract_vector.py 527-600 [get_hom_condition] on a DataFrame with the
    condition 'dmag'.  It always works on the loader's own data set [whole]
    trimmed to the bounds (548-556, 566): the data passed in is not used. *)
Definition vector_hom_dmag (min_dp : Z) (whole : data) (b : boundary) (c : cond) : hom :=
  let d := df_trim b whole in
  if Z.of_nat (List.length d) <? min_dp then CLR
  else
    let n := match d with [] => 0%nat | p :: _ => List.length (p_vals p) end in
    let means := map (fun i => match drop_nan (column i d) with [] => None | l => Some (qmean l) end) (seq 0 n) in
    let flow := map (dmag2 means) d in
    if all_nan flow then CLR
    else
      let vs := drop_nan flow in
      classify c (qlen (filter (norm_over (c_threshold c)) vs) / qlen vs)%Q.

Definition vector_df (uid : Z) (names : list string) (agg_type : string) (min_dp : Z) (whole : data)
    (sqrt : Q -> Q) : loader :=
  mkLoader uid names df_trim (fun b c _ => vector_hom_dmag min_dp whole b c)
           (fun _ d => vector_value_df sqrt agg_type names d).
