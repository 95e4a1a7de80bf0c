(** Model of meshiphi/mesh_generation/cellbox.py and metadata.py.
    No proofs here. *)
From Coq Require Export String.
From Verif Require Import Base Geo Graph.
Open Scope Z_scope.

(** String-keyed insertion-ordered dictionaries. *)
Definition sdict (V : Type) := list (string * V).
Fixpoint sget {V} (d : sdict V) (k : string) : option V :=
  match d with
  | [] => None
  | (k', v) :: d' => if String.eqb k k' then Some v else sget d' k
  end.
Fixpoint sset {V} (d : sdict V) (k : string) (v : V) : sdict V :=
  match d with
  | [] => [(k, v)]
  | (k', v') :: d' => if String.eqb k k' then (k', v) :: d' else (k', v') :: sset d' k v
  end.
(** [d.update(e)] *)
Definition supdate {V} (d e : sdict V) : sdict V :=
  fold_left (fun d kv => sset d (fst kv) (snd kv)) e d.

(** A datapoint: position, optional time column (day ordinal) and the values of
    the data column(s), [None] for NaN. *)
Record point := mkP { p_lat : Q; p_long : Q; p_time : option Z; p_vals : list (option Q) }.
Definition data := list point.

(** The answers of [get_hom_condition]. *)
Inductive hom := CLR | HOM | MIN | HET.
Definition hom_eqb (a b : hom) : bool :=
  match a, b with CLR, CLR | HOM, HOM | MIN, MIN | HET, HET => true | _, _ => false end.

(** One splitting condition ({'threshold','lower_bound','upper_bound','split_lock'}). *)
Record cond := mkCond { c_threshold : Q; c_lower : Q; c_upper : Q; c_lock : bool }.

(** A data loader object as the mesh code sees it: its identity (loader objects
    are compared by identity), its data names ([data_name.split(',')], one name
    for a scalar source), and its three methods.  Loaders.v gives the concrete
    scalar and vector loaders; everything in the mesh code is modelled for
    arbitrary ones.  Simplification: [get_hom_condition] does not raise. *)
Record loader := mkLoader {
  l_uid : Z;
  l_names : list string;
  l_trim : boundary -> data -> data;
  l_hom : boundary -> cond -> data -> hom;
  l_value : boundary -> data -> res (sdict (option Q)) }.

(** [value_fill_types]: 'parent', a number, or the string 'Nan'. *)
Inductive fill := FillParent | FillNum (q : Q) | FillNan.

(** metadata.py 20-40 *)
Record metadata := mkMeta {
  m_loader : loader; m_conds : list cond; m_fill : fill; m_subset : data }.

(** cellbox.py: the attributes of a CellBox.  Ids are strings str(n) in the code
    and the int n here. *)
Inductive cellbox := mkCell {
  cb_bounds : boundary;
  cb_id : Z;
  cb_depth : Z;
  cb_sources : list metadata;
  cb_parent : option cellbox }.

(** cellbox.py 153-194 and 196-232: the homogeneity answers of a list of sources. *)
Definition hom_conditions (b : boundary) (srcs : list metadata) : list hom :=
  flat_map (fun s => map (fun c => l_hom (m_loader s) b c (m_subset s)) (m_conds s)) srcs.

Definition count_clr (l : list hom) : nat := List.length (filter (hom_eqb CLR) l).

(** cellbox.py 187-194 / 225-232: the decision. *)
Definition split_decision (l : list hom) : bool :=
  if existsb (hom_eqb HOM) l then false
  else if existsb (hom_eqb MIN) l then false
  else if Nat.eqb (count_clr l) (List.length l) then false
  else true.

(** cellbox.py 179-186: [for index in range(0, stop_index): self.get_data_source()[index]]. *)
Definition should_split (c : cellbox) (stop_index : nat) : res bool :=
  srcs <- mapM (fun i => py_nth (cb_sources c) (Z.of_nat i)) (seq 0 stop_index) ;;
  Ok (split_decision (hom_conditions (cb_bounds c) srcs)).

(** cellbox.py 196-232 *)
Definition should_split_breadth_first (c : cellbox) : bool :=
  split_decision (hom_conditions (cb_bounds c) (cb_sources c)).

(** cellbox.py 265-304 [create_splitted_cell_boxes], bounds only; order NW, NE,
    SW, SE. *)
Definition split_bounds (b : boundary) : res (list boundary) :=
  (let half_width := get_width b / 2 in
   let half_height := get_height b / 2 in
   let t := time_range b in
   let lat := lat_min b in
   let long := long_min b in
   nw <- Boundary [lat + half_height; lat + get_height b]
                  [long; longitude_domain (long + half_width)] t ;;
   ne <- Boundary [lat + half_height; lat + get_height b]
                  [longitude_domain (long + half_width); longitude_domain (long + get_width b)] t ;;
   sw <- Boundary [lat; lat + half_height]
                  [long; longitude_domain (long + half_width)] t ;;
   se <- Boundary [lat; lat + half_height]
                  [longitude_domain (long + half_width); longitude_domain (long + get_width b)] t ;;
   Ok [nw; ne; sw; se])%Q.

(** cellbox.py 251-262: one child's data sources, trimmed to its bounds. *)
Definition child_sources (b : boundary) (srcs : list metadata) : list metadata :=
  map (fun s => mkMeta (m_loader s) (m_conds s) (m_fill s)
                       (l_trim (m_loader s) b (m_subset s))) srcs.

(** cellbox.py 234-263 [split]: ids start_id, start_id+1, ... in the order NW,
    NE, SW, SE; depth + 1; parent = self. *)
Definition cell_split (c : cellbox) (start_id : Z) : res (list cellbox) :=
  bs <- split_bounds (cb_bounds c) ;;
  Ok (map (fun ib => mkCell (snd ib) (start_id + Z.of_nat (fst ib)) (cb_depth c + 1)
                            (child_sources (snd ib) (cb_sources c)) (Some c))
          (combine (seq 0 (List.length bs)) bs)).

(** Values stored in the aggregated dictionary: a float (None = NaN) or the
    string 'Nan' that [value_fill_types = "Nan"] stores. *)
Inductive aval := Num (v : option Q) | NanString.
(** [np.isnan(v)]; a string is a TypeError. *)
Definition isnan (v : aval) : res bool :=
  match v with Num None => Ok true | Num (Some _) => Ok false | NanString => Err TypeError end.
Definition fill_value (f : fill) : aval :=
  match f with FillNum q => Num (Some q) | FillNan => NanString | FillParent => Num None end.

(** cellbox.py 333-338 / 370-375: find the source with the same loader object. *)
Fixpoint find_source (uid : Z) (l : list metadata) : res metadata :=
  match l with
  | [] => Err ValueError
  | s :: l' => if l_uid (m_loader s) =? uid then Ok s else find_source uid l'
  end.

(** The chain parent, grandparent, ... walked by [parent = parent.get_parent()]. *)
Fixpoint ancestors (c : cellbox) : list cellbox :=
  match c with
  | mkCell _ _ _ _ None => []
  | mkCell _ _ _ _ (Some p) => p :: ancestors p
  end.

(** cellbox.py 331-341: the [while parent is not None and isnan] loop for a
    scalar source, over the chain of ancestors. *)
Fixpoint parent_value (ld : loader) (name : string) (v : sdict (option Q))
    (parents : list cellbox) : res (sdict (option Q)) :=
  match parents with
  | [] => Ok v
  | p :: parents' =>
      match sget v name with
      | None => Err KeyError
      | Some (Some _) => Ok v
      | Some None =>
          s <- find_source (l_uid ld) (cb_sources p) ;;
          v' <- l_value ld (cb_bounds p) (m_subset s) ;;
          parent_value ld name v' parents'
      end
  end.

(** cellbox.py 368-378: the same loop for one component of a vector source;
    only that component is replaced. *)
Fixpoint parent_component (ld : loader) (name : string) (cur : option Q)
    (parents : list cellbox) : res (option Q) :=
  match parents with
  | [] => Ok cur
  | p :: parents' =>
      match cur with
      | Some _ => Ok cur
      | None =>
          s <- find_source (l_uid ld) (cb_sources p) ;;
          v' <- l_value ld (cb_bounds p) (m_subset s) ;;
          match sget v' name with
          | None => Err KeyError
          | Some x => parent_component ld name x parents'
          end
      end
  end.

(** [','.join(names)]: [loader.data_name]. *)
Definition join_names (l : list string) : string := String.concat "," l.

(** cellbox.py 358-381 [check_vector_data].  Line 380 writes the fill value under
    the joined name [data_name], not under the component. *)
Definition check_vector_data (c : cellbox) (s : metadata) (v : sdict aval) : res (sdict aval) :=
  let ld := m_loader s in
  foldM (fun v name =>
    match sget v name with
    | None => Err KeyError
    | Some cur =>
        n <- isnan cur ;;
        if n then
          match m_fill s with
          | FillParent =>
              x <- parent_component ld name None (ancestors c) ;;
              Ok (sset v name (Num x))
          | f => Ok (sset v (join_names (l_names ld)) (fill_value f))
          end
        else Ok v
    end) v (l_names ld).

Definition to_avals (d : sdict (option Q)) : sdict aval :=
  map (fun kv => (fst kv, Num (snd kv))) d.

(** cellbox.py 315-343: the values contributed by one source.  [',' in data_name]
    is modelled by "more than one name". *)
Definition source_values (c : cellbox) (s : metadata) : res (sdict aval) :=
  let ld := m_loader s in
  v <- l_value ld (cb_bounds c) (m_subset s) ;;
  match l_names ld with
  | [name] =>
      match sget v name with
      | None => Err KeyError
      | Some (Some _) => Ok (to_avals v)
      | Some None =>
          match m_fill s with
          | FillParent => v' <- parent_value ld name v (ancestors c) ;; Ok (to_avals v')
          | f => Ok (sset (to_avals v) name (fill_value f))
          end
      end
  | _ => check_vector_data c s (to_avals v)
  end.

(** cellbox.py 345-351 *)
Definition merge_values (agg : sdict aval) (name : string) (v : sdict aval) : res (sdict aval) :=
  match sget agg name with
  | Some old => n <- isnan old ;; Ok (if n then supdate agg v else agg)
  | None => Ok (supdate agg v)
  end.

(** aggregated_cellbox.py 69-80 *)
Record agg_cellbox := mkAgg { ac_bounds : boundary; ac_data : sdict aval; ac_id : Z }.

(** cellbox.py 306-356 [aggregate].  [deallocate_cellbox] (383-401) only deletes
    local names and has no effect. *)
Definition aggregate (c : cellbox) : res agg_cellbox :=
  d <- foldM (fun agg s =>
                v <- source_values c s ;;
                merge_values agg (join_names (l_names (m_loader s))) v)
             [] (cb_sources c) ;;
  Ok (mkAgg (cb_bounds c) d (cb_id c)).
