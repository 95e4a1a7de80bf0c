(** Model of the derivatives of vector fields: abstract_vector.py 527-600 (condition
    'curl'), 928-1085 and utils.py 159-173.  No proofs here.

    An array of two axes is its shape and its entries, None for NaN.  Datasets have the
    dimensions lat and long, in this order, and no time. *)
From Verif Require Import Base Geo Cell Loaders.
Open Scope nat_scope.

Record array2 := mkA { a_n0 : nat; a_n1 : nat; a_at : nat -> nat -> option Q }.
Definition entries (a : array2) : list (option Q) :=
  flat_map (fun i => map (a_at a i) (seq 0 (a_n1 a))) (seq 0 (a_n0 a)).
Definition swap (a : array2) : array2 := mkA (a_n1 a) (a_n0 a) (fun i j => a_at a j i).
Definition osub (a b : option Q) : option Q := match a, b with Some x, Some y => Some (x - y)%Q | _, _ => None end.
Definition oadd (a b : option Q) : option Q := match a, b with Some x, Some y => Some (x + y)%Q | _, _ => None end.
Definition ohalf (a : option Q) : option Q := option_map (fun x => x / 2)%Q a.
Definition minus2 (a b : array2) : array2 := mkA (a_n0 a) (a_n1 a) (fun i j => osub (a_at a i j) (a_at b i j)).
Definition plus2 (a b : array2) : array2 := mkA (a_n0 a) (a_n1 a) (fun i j => oadd (a_at a i j) (a_at b i j)).

(** [np.gradient] with unit spacing: central differences, one-sided at the ends; fewer
    than two entries along the axis raise ValueError. *)
Definition gradient1 (n : nat) (f : nat -> option Q) (i : nat) : option Q :=
  match i with
  | O => osub (f 1) (f 0)
  | S k => if S i =? n then osub (f i) (f k) else ohalf (osub (f (S i)) (f k))
  end.
Definition gradient_axis0 (a : array2) : res array2 :=
  if a_n0 a <? 2 then Err ValueError else Ok (mkA (a_n0 a) (a_n1 a) (fun i j => gradient1 (a_n0 a) (fun k => a_at a k j) i)).
Definition gradient_axis1 (a : array2) : res array2 :=
  if a_n1 a <? 2 then Err ValueError else Ok (mkA (a_n0 a) (a_n1 a) (fun i j => gradient1 (a_n1 a) (fun k => a_at a i k) j)).

(** [data.pivot(index='lat', columns='long', values=...)]: the different latitudes and
    longitudes in increasing order; ValueError if a position occurs twice. *)
Fixpoint uniq (l : list Q) : list Q :=
  match l with [] => [] | x :: l' => match l' with [] => [x] | y :: _ => if qeqb x y then uniq l' else x :: uniq l' end end.
Definition labels (l : list Q) : list Q := uniq (qsort l).
Definition same_place (p q : point) : bool := qeqb (p_lat p) (p_lat q) && qeqb (p_long p) (p_long q).
Fixpoint twice (d : data) : bool := match d with [] => false | p :: d' => existsb (same_place p) d' || twice d' end.
Definition lookup (d : data) (k : nat) (lat long : Q) : option Q :=
  match find (fun p => qeqb (p_lat p) lat && qeqb (p_long p) long) d with Some p => nth k (p_vals p) None | None => None end.
Definition pivot (d : data) (k : nat) : res array2 :=
  if twice d then Err ValueError
  else let lats := labels (map p_lat d) in let longs := labels (map p_long d) in
       Ok (mkA (List.length lats) (List.length longs) (fun i j => lookup d k (nth i lats 0%Q) (nth j longs 0%Q))).
(** abstract_vector.py 1054-1065 [meshgrid_from_df] and 1067-1073 [meshgrid_from_xr], the
    two components. *)
Definition meshgrid_df (d : data) : res (array2 * array2) :=
  x <- pivot d 0 ;; y <- pivot d 1 ;; Ok (swap x, swap y).
Definition xr_array (ds : xrds) (k : nat) : array2 :=
  mkA (List.length (x_lat ds)) (List.length (x_long ds))
      (fun i j => nth k (x_val ds (snd (nth i (x_lat ds) (0%Q, 0))) (snd (nth j (x_long ds) (0%Q, 0))) 0) None).
Definition meshgrid_xr (ds : xrds) : res (array2 * array2) := Ok (xr_array ds 0, xr_array ds 1).

(** abstract_vector.py 953-979 [calc_curl]; None for NaN. *)
Definition has_one (a : array2) : bool := (a_n0 a =? 1) || (a_n1 a =? 1).
Definition curl_field (g : res (array2 * array2)) : res (option array2) :=
  f <- g ;; let (fx, fy) := f : array2 * array2 in
  if has_one fx || has_one fy then Ok None
  else dfx_dy <- gradient_axis1 fx ;; dfy_dx <- gradient_axis0 fy ;;
       let c := minus2 dfy_dx dfx_dy in if all_nan (entries c) then Ok None else Ok (Some c).
Definition qabs (x : Q) : Q := if qltb x 0 then (- x)%Q else x.
Definition curl_value (agg_type : string) (g : res (array2 * array2)) : res (option Q) :=
  f <- curl_field g ;;
  match f with
  | None => Ok None
  | Some c =>
      let l := drop_nan (entries c) in
      if String.eqb agg_type "MAX" then
        Ok (Some (if qltb (qabs (qmax_list l)) (qabs (qmin_list l)) then qmin_list l else qmax_list l))
      else if String.eqb agg_type "MEAN" then Ok (Some (qmean l)) else Err ValueError
  end.

(** abstract_vector.py 527-600 with the condition 'curl': the data is the loader's own,
    trimmed to the bounds. *)
Definition hom_curl (min_dp : Z) (num_dp : Z) (g : res (array2 * array2)) (c : cond) : res hom :=
  if (num_dp <? min_dp)%Z then Ok CLR
  else f <- curl_field g ;;
       match f with
       | None => Ok CLR
       | Some a => Ok (classify c (frac_over (c_threshold c) (entries a)))
       end.
Definition vector_hom_curl_df (min_dp : Z) (whole : data) (b : boundary) (c : cond) : res hom :=
  let d := df_trim b whole in hom_curl min_dp (Z.of_nat (List.length d)) (meshgrid_df d) c.

(** abstract_vector.py 1008-1034 [calc_dmag] on a DataFrame of two components, for the
    points [d] of the bounds: the average vector is the value of the given aggregation
    type.  Before the square root. *)
Definition dmag2_field (agg_type : string) (d : data) : res (list (option Q)) :=
  ave <- vector_values_df (fun x => x) agg_type 2 d ;; Ok (map (dmag2 ave) d).
Definition dmag_value (sqrt : Q -> Q) (agg_type : string) (d : data) : res (option Q) :=
  f <- dmag2_field agg_type d ;;
  if all_nan f then Ok None
  else let l := map sqrt (drop_nan f) in
       if String.eqb agg_type "MAX" then Ok (Some (qmax_list l))
       else if String.eqb agg_type "MEAN" then Ok (Some (qmean l)) else Err ValueError.
(** A Dataset has no [to_numpy]. *)
Definition dmag2_field_xr (agg_type : string) (ds : xrds) : res (list (option Q)) := Err AttributeError.

(** utils.py 159-173: [flow] has the axes 0, 1 and the components. *)
Definition utils_curl (fx fy : array2) : res array2 :=
  dfx_dy <- gradient_axis1 (swap fx) ;; dfy_dx <- gradient_axis0 (swap fy) ;; Ok (minus2 dfy_dx dfx_dy).
Definition utils_divergence (fx fy : array2) : res array2 :=
  dfx_dx <- gradient_axis0 (swap fx) ;; dfy_dy <- gradient_axis1 (swap fy) ;; Ok (plus2 dfx_dx dfy_dy).
