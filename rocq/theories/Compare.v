(** Model of utils.py 109-156 [round_to_sigfig] and of
    meshiphi/mesh_validation/mesh_comparator.py.  No proofs here. *)
From Verif Require Import Base Geo Cell PyStr Dates Config.
Open Scope string_scope.
Open Scope Z_scope.

(** ** Rounding to significant figures *)

(** [np.floor(np.log10(a))] for a >= 1 and for 0 < a < 1 (the fuel is the number
    of binary digits, more than enough). *)
Fixpoint log_up (fuel : nat) (a : Q) : Z :=
  match fuel with
  | O => 0
  | S f => if qleb 10 a then 1 + log_up f (a / 10)%Q else 0
  end.
Fixpoint log_down (fuel : nat) (a : Q) : Z :=
  match fuel with
  | O => 0
  | S f => if qltb a 1 then log_down f (a * 10)%Q - 1 else 0
  end.
Definition floor_log10 (a : Q) : Z :=
  if qleb 1 a then log_up (S (Z.to_nat (Z.log2 (Qnum a)))) a
  else log_down (S (Z.to_nat (Z.log2 (QDen a)))) a.
(** utils.py 131, 139-142: the exponent of a value, 0 for the value 0 (the mask
    [loggable_idxs] leaves the zeros of [out] there). *)
Definition exponent (x : Q) : Z := if qeqb x 0 then 0 else floor_log10 (qabs x).

(** [np.rint]: to the nearest integer, ties to even. *)
Definition rint (x : Q) : Z :=
  let f := Qfloor x in
  let r := (x - inject_Z f)%Q in
  if qltb r (1#2) then f else if qltb (1#2) r then f + 1 else if Z.even f then f else f + 1.
Definition pow10 (k : Z) : Q := Qpower 10 k.
(** [np.around(x, decimals=d)]: x * 10^d to the nearest integer, over 10^d. *)
Definition around (x : Q) (d : Z) : Q := (inject_Z (rint (x * pow10 d)) * pow10 (- d))%Q.
(** utils.py 139-147 on one float *)
Definition sigfig_float (x : Q) (sigfig : Z) : Q := around x (sigfig - exponent x - 1).

Definition float_of (j : json) : option Q :=
  match j with JFloat q => Some q | JInt z => Some (inject_Z z) | JBool b => Some (if b then 1%Q else 0%Q) | _ => None end.
Definition is_float (j : json) : bool := match j with JFloat _ => true | _ => false end.
Definition is_num (j : json) : bool := match float_of j with Some _ => true | None => false end.
Definition round_float (sigfig : Z) (j : json) : json :=
  match float_of j with Some q => JFloat (sigfig_float q sigfig) | None => j end.

(** utils.py 109-156 on the values a mesh file can hold (no NaN, no infinity).
    - 122-123: any other type is refused.
    - An int becomes an integer array; [np.log10(.., out=np.zeros_like(x))] then
      asks for a float64 result in an int64 array, which numpy refuses
      (UFuncTypeError, a TypeError).  The same for a list of ints and for bools.
    - A list with at least one float, or empty, is a float array.  Lists with
      anything else in them fail in [np.isfinite] (TypeError). *)
Definition round_to_sigfig (x : json) (sigfig : Z) : res json :=
  match x with
  | JFloat q => Ok (JFloat (sigfig_float q sigfig))
  | JInt _ => Err TypeError
  | JArr [] => Ok (JArr [])
  | JArr l => if forallb is_num l && existsb is_float l then Ok (JArr (map (round_float sigfig) l)) else Err TypeError
  | _ => Err ValueError
  end.

(** ** The comparator *)

(** Equality of values read from JSON, [==] in Python: numbers (and True, False)
    by value, dictionaries without regard to order. *)
Fixpoint py_eqb (a b : json) {struct a} : bool :=
  match a, b with
  | JNull, JNull => true
  | JStr s, JStr t => String.eqb s t
  | JArr l, JArr l' =>
      (fix eq_list (l l' : list json) : bool :=
         match l, l' with
         | [], [] => true
         | x :: m, y :: m' => py_eqb x y && eq_list m m'
         | _, _ => false
         end) l l'
  | JObj o, JObj o' =>
      Nat.eqb (List.length o) (List.length o') &&
      (fix eq_obj (o : sdict json) : bool :=
         match o with
         | [] => true
         | (k, v) :: o1 => match sget o' k with Some w => py_eqb v w | None => false end && eq_obj o1
         end) o
  | (JBool _ | JInt _ | JFloat _), (JBool _ | JInt _ | JFloat _) =>
      match float_of a, float_of b with Some x, Some y => qeqb x y | _, _ => false end
  | _, _ => false
  end.

(** The parts of a mesh file the comparator reads: 'cellboxes' (a list of
    dictionaries) and 'neighbour_graph' (id -> direction -> ids). *)
Definition cell := sdict json.
Record mesh_file := mkFile { f_cells : list cell; f_graph : sdict (sdict (list Z)) }.

(** A DataFrame with its index: column names, and rows (label, values).  The
    label is the geometry, None for NaN (a cell without a geometry); geometries
    are strings in every mesh file. *)
Definition label := option string.
Definition label_eqb (a b : label) : bool :=
  match a, b with Some s, Some t => String.eqb s t | None, None => true | _, _ => false end.
Record frame := mkFrame { f_cols : list string; f_rows : list (label * list json) }.
Definition empty_frame : frame := mkFrame [] [].

Definition geometry_of (c : cell) : label := match sget c "geometry" with Some (JStr s) => Some s | _ => None end.
(** A missing entry becomes NaN (JNull; so does None). *)
Definition value (c : cell) (col : string) : json := match sget c col with Some v => v | None => JNull end.
Definition in_strs (s : string) (l : list string) : bool := existsb (String.eqb s) l.
(** The columns of [pd.DataFrame(cs)], in order of first appearance, after
    [set_index('geometry')]. *)
Definition columns (cs : list cell) : list string :=
  filter (fun s => negb (String.eqb s "geometry"))
    (fold_left (fun acc c => fold_left (fun acc s => if in_strs s acc then acc else (acc ++ [s])%list) (map fst c) acc) cs []).
(** [pd.DataFrame(cs).set_index('geometry')]: KeyError when no cell has one. *)
Definition indexed (cs : list cell) : res (list (label * cell)) :=
  if existsb (fun c => match sget c "geometry" with Some _ => true | None => false end) cs
  then Ok (map (fun c => (geometry_of c, c)) cs) else Err KeyError.
Definition to_frame (cols : list string) (rows : list (label * cell)) : frame :=
  mkFrame cols (map (fun r => (fst r, map (value (snd r)) cols)) rows).
Definition has_label (l : label) (rows : list (label * cell)) : bool := existsb (fun r => label_eqb l (fst r)) rows.

(** mesh_comparator.py 10-33 [_return_as]: a frame, one of its columns, or None. *)
Inductive answer := AFrame (f : frame) | AColumn (l : list json) | ANone.
Fixpoint col_index (s : string) (l : list string) : option nat :=
  match l with [] => None | x :: l' => if String.eqb s x then Some O else option_map S (col_index s l') end.
Definition df_column (f : frame) (s : string) : res answer :=
  match col_index s (f_cols f) with
  | Some i => Ok (AColumn (map (fun r => nth i (snd r) JNull) (f_rows f)))
  | None => Err KeyError
  end.
Definition return_as (f : frame) (return_type : option string) : res answer :=
  let t := match return_type with None => "df" | Some t => t end in
  if in_strs t ["cellboxes"; "cb"] then df_column f "cellboxes"
  else if in_strs t ["id"] then df_column f "id"
  else if in_strs t ["dataframe"; "df"] then Ok (AFrame f) else Ok ANone.

(** mesh_comparator.py 36-70 up to the return: the frame [mismatched_df]. *)
Definition boundaries_frame (m1 m2 : mesh_file) : res frame :=
  r1 <- indexed (f_cells m1) ;;
  r2 <- indexed (f_cells m2) ;;
  match filter (fun r => negb (has_label (fst r) r1)) r2 with
  | [] => Ok empty_frame
  | rows => Ok (to_frame (columns (f_cells m2)) rows)
  end.
Definition compare_cellbox_boundaries (m1 m2 : mesh_file) (rt : option string) : res answer :=
  f <- boundaries_frame m1 m2 ;; return_as f rt.

(** mesh_comparator.py 107-111: a column has dtype float when its values are
    numbers (no bools) or missing, and either one is a float or ints are mixed
    with missing ones. *)
Definition float_col (cs : list cell) (col : string) : bool :=
  let vs := map (fun c => value c col) cs in
  forallb (fun v => match v with JInt _ | JFloat _ | JNull => true | _ => false end) vs &&
  (existsb is_float vs ||
   (existsb (fun v => match v with JInt _ => true | _ => false end) vs &&
    existsb (fun v => match v with JNull => true | _ => false end) vs)).
(** mesh_comparator.py 107-122: float columns are rounded; so are lists of
    floats in the other columns. *)
Definition tolerance : Z := 4.
Definition rounded (cs : list cell) (col : string) (v : json) : json :=
  if float_col cs col then round_float tolerance v
  else match v with
       | JArr l => if forallb is_float l then JArr (map (round_float tolerance) l) else v
       | _ => v
       end.
Definition isna (v : json) : bool := match v with JNull => true | _ => false end.
(** [df.compare]: equal, or both missing *)
Definition same_value (v w : json) : bool := py_eqb v w || (isna v && isna w).
(** [df.loc[labels]] *)
Definition loc {A} (rows : list (label * A)) (ls : list label) : list (label * A) :=
  flat_map (fun l => filter (fun r => label_eqb l (fst r)) rows) ls.
Fixpoint unique_labels (ls : list label) : list label :=
  match ls with [] => [] | l :: ls' => l :: filter (fun x => negb (label_eqb l x)) (unique_labels ls') end.
(** [index.intersection]: labels of the first that the second has, once each *)
Definition intersection {A B} (r1 : list (label * A)) (r2 : list (label * B)) : list label :=
  unique_labels (filter (fun l => existsb (fun r => label_eqb l (fst r)) r2) (map fst r1)).
Fixpoint labels_eqb (a b : list label) : bool :=
  match a, b with [], [] => true | x :: a', y :: b' => label_eqb x y && labels_eqb a' b' | _, _ => false end.
Definition row_same (v w : list json) : bool := forallb (fun p => same_value (fst p) (snd p)) (combine v w).
(** mesh_comparator.py 74-130 up to the return.  [df.compare] wants identical
    labels (ValueError).  The order of the common columns is Python's set order;
    here the order of the first mesh. *)
Definition values_frame (m1 m2 : mesh_file) : res frame :=
  r1 <- indexed (f_cells m1) ;;
  r2 <- indexed (f_cells m2) ;;
  let common := intersection r1 r2 in
  let cols := filter (fun s => in_strs s (columns (f_cells m2))) (columns (f_cells m1)) in
  let t1 := map (fun r => (fst r, map (fun s => rounded (f_cells m1) s (value (snd r) s)) cols)) (loc r1 common) in
  let t2 := map (fun r => (fst r, map (fun s => rounded (f_cells m2) s (value (snd r) s)) cols)) (loc r2 common) in
  if labels_eqb (map fst t1) (map fst t2) then
    let diff := map (fun p => fst (fst p)) (filter (fun p => negb (row_same (snd (fst p)) (snd (snd p)))) (combine t1 t2)) in
    Ok (mkFrame cols (loc t2 diff))
  else Err ValueError.
Definition compare_cellbox_values (m1 m2 : mesh_file) (rt : option string) : res answer :=
  f <- values_frame m1 m2 ;; return_as f rt.

(** mesh_comparator.py 152-153: [{i['geometry']: pd.Series(i) for i in cells}].
    Geometries are strings (anything else is refused here). *)
Definition by_geometry (cs : list cell) : res (sdict cell) :=
  foldM (fun d c => match sget c "geometry" with
                    | Some (JStr s) => Ok (sset d s c)
                    | Some _ => Err TypeError
                    | None => Err KeyError
                    end) [] cs.
Fixpoint strs_eqb (a b : list string) : bool :=
  match a, b with [], [] => true | x :: a', y :: b' => String.eqb x y && strs_eqb a' b' | _, _ => false end.
(** mesh_comparator.py 133-176 up to the return *)
Definition attributes_frame (m1 m2 : mesh_file) : res frame :=
  d1 <- by_geometry (f_cells m1) ;;
  d2 <- by_geometry (f_cells m2) ;;
  let rows := flat_map (fun kv => match sget d2 (fst kv) with
                                  | Some c2 => if strs_eqb (map fst (snd kv)) (map fst c2) then [] else [c2]
                                  | None => []
                                  end) d1 in
  match rows with
  | [] => Ok empty_frame
  | _ => Ok (to_frame (columns rows) (map (fun c => (geometry_of c, c)) rows))
  end.
Definition compare_cellbox_attributes (m1 m2 : mesh_file) (rt : option string) : res answer :=
  f <- attributes_frame m1 m2 ;; return_as f rt.

(** [sorted(l)] *)
Fixpoint zinsert (x : Z) (l : list Z) : list Z :=
  match l with [] => [x] | y :: l' => if x <=? y then x :: l else y :: zinsert x l' end.
Definition zsort (l : list Z) : list Z := fold_right zinsert [] l.
Fixpoint zs_eqb (a b : list Z) : bool :=
  match a, b with [], [] => true | x :: a', y :: b' => Z.eqb x y && zs_eqb a' b' | _, _ => false end.
(** mesh_comparator.py 207-210: the dictionaries of sorted lists are equal *)
Definition neighbours_same (a b : sdict (list Z)) : bool :=
  Nat.eqb (List.length a) (List.length b) &&
  forallb (fun kv => match sget b (fst kv) with Some l => zs_eqb (zsort (snd kv)) (zsort l) | None => false end) a.
(** mesh_comparator.py 178-219: the labels of the rows of [mismatched_df].
    ([pd.concat(.., axis=1)] puts the reported one-row frames side by side, so
    the columns are repeated once per reported cell.)  A cell without 'id' has
    NaN there, equal to nothing. *)
Definition graph_labels (m1 m2 : mesh_file) : res (list label) :=
  r2 <- indexed (f_cells m2) ;;
  foldM (fun acc nv =>
    match sget (f_graph m1) (fst nv) with
    | None => Ok acc
    | Some n1 =>
        if neighbours_same n1 (snd nv) then Ok acc
        else if in_strs "id" (columns (f_cells m2))
             then Ok (acc ++ map fst (filter (fun r => py_eqb (value (snd r) "id") (JStr (fst nv))) r2))%list
             else Err KeyError
    end) [] (f_graph m2).
