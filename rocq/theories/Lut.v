(** Model of the lookup-table dataloaders: dataloaders/lut/thickness.py,
    density.py and abstract_lut.py.  No proofs here.

    The planar geometry shapely provides is an argument: a type of geometries
    with the operations the code uses.  Nothing is assumed of them except what
    a theorem states. *)
From Verif Require Import Base Geo Cell Loaders Dates.
Open Scope Z_scope.

Inductive gkind := KPolygon | KMulti | KOther.
(** The shapes named in the two tables: a Boundary's polygon, or the northern
    hemisphere without a rectangle (thickness.py 104-105). *)
Inductive shape := Rect (b : boundary) | NorthWithout (b : boundary).
Record geometry := mkG {
  geom : Type;
  g_shape : shape -> geom;
  g_inter : geom -> geom -> geom;             (* & *)
  g_kind : geom -> gkind;                     (* geom_type *)
  g_empty : geom -> bool;                     (* is_empty *)
  g_eq : forall a b : geom, {a = b} + {a <> b};
  g_parts : geom -> list geom;                (* .geoms of a MultiPolygon *)
  g_intersects : geom -> geom -> bool;
  g_covered : list geom -> geom -> Q }.       (* unary_union(l).intersection(g).area / g.area *)

(** A non-empty Polygon or MultiPolygon.  (Both tables test this; the
    intersection of polygons is never an empty MultiPolygon.) *)
Definition usable (o : geometry) (g : geom o) : bool :=
  match g_kind o g with KOther => false | _ => negb (g_empty o g) end.

(** ** Seasons: thickness.py 10-22, density.py 29-41 *)
Inductive season := Wi | Sp | Su | Au.
Definition northern_seasons : list (Z * season) :=
  [(1, Wi); (2, Wi); (12, Wi); (3, Sp); (4, Sp); (5, Sp); (6, Su); (7, Su); (8, Su); (9, Au); (10, Au); (11, Au)].
Definition southern_seasons : list (Z * season) :=
  [(1, Su); (2, Su); (12, Su); (3, Au); (4, Au); (5, Au); (6, Wi); (7, Wi); (8, Wi); (9, Sp); (10, Sp); (11, Sp)].
Definition lookup_month (d : list (Z * season)) (m : Z) : res season :=
  match find (fun e => Z.eqb (fst e) m) d with Some e => Ok (snd e) | None => Err KeyError end.

(** ** Dates: days are Python ordinals *)
(** [pd.date_range(start, end)]: all days from start to end; pandas' timestamps
    reach from 1677-09-22 to 2262-04-11 (OutOfBoundsDatetime is a ValueError). *)
Definition pandas_day (n : Z) : bool := (ymd2ord 1677 9 22 <=? n) && (n <=? ymd2ord 2262 4 11).
Definition date_range (lo hi : Z) : res (list Z) :=
  if pandas_day lo && pandas_day hi then Ok (map (fun i => lo + Z.of_nat i) (seq 0 (Z.to_nat (hi - lo + 1))))
  else Err ValueError.
Definition month (n : Z) : Z := let '(_, m, _) := ord2ymd n in m.
(** [bounds.get_time_min()], [get_time_max()] *)
Definition time_min (b : boundary) : res Z := match time_range b with t :: _ => Ok t | [] => Err IndexError end.
Definition time_max (b : boundary) : res Z := match time_range b with _ :: t :: _ => Ok t | _ => Err IndexError end.
Definition dates_of (b : boundary) : res (list Z) :=
  lo <- time_min b ;; hi <- time_max b ;; date_range lo hi.

(** ** Tables *)
Record lrow (G : Type) := mkRow { r_time : Z; r_geom : G; r_val : Q }.
Arguments mkRow {G}. Arguments r_time {G}. Arguments r_geom {G}. Arguments r_val {G}.
Definition row_eqb (o : geometry) (a b : lrow (geom o)) : bool :=
  (r_time a =? r_time b) && (if g_eq o (r_geom a) (r_geom b) then true else false) && qeqb (r_val a) (r_val b).
(** [drop_duplicates]: the first of equal rows stays *)
Fixpoint drop_duplicates {A} (eqb : A -> A -> bool) (seen l : list A) : list A :=
  match l with
  | [] => []
  | x :: l' => if existsb (eqb x) seen then drop_duplicates eqb seen l' else x :: drop_duplicates eqb (x :: seen) l'
  end.
(** [set_index('time').sort_index()].  pandas' default sort is not stable; the
    order within a day is not modelled. *)
Fixpoint insert_row {G} (r : lrow G) (l : list (lrow G)) : list (lrow G) :=
  match l with
  | [] => [r]
  | x :: l' => if r_time r <=? r_time x then r :: l else x :: insert_row r l'
  end.
Definition sort_rows {G} (l : list (lrow G)) : list (lrow G) := fold_right insert_row [] l.

(** ** thickness.py *)
Record region_row := mkReg { rg_name : string; rg_shape : shape; rg_values : season -> Q; rg_seasons : list (Z * season) }.
Definition seasonal (wi sp su au : Q) (s : season) : Q :=
  match s with Wi => wi | Sp => sp | Su => su | Au => au end.
Definition box_of (lat0 lat1 long0 long1 : Q) : boundary := mkB lat0 lat1 long0 long1 [].
(** 67-108 *)
Definition regions : list region_row :=
  [mkReg "Ross E" (Rect (box_of (-90) 0 (-180) (-130))) (seasonal (72#100) (67#100) (132#100) (82#100)) southern_seasons;
   mkReg "Bellinghausen" (Rect (box_of (-90) 0 (-130) (-60))) (seasonal (65#100) (79#100) (214#100) (79#100)) southern_seasons;
   mkReg "Weddell W" (Rect (box_of (-90) 0 (-60) (-45))) (seasonal (133#100) (133#100) (120#100) (138#100)) southern_seasons;
   mkReg "Weddell E" (Rect (box_of (-90) 0 (-45) 20)) (seasonal (54#100) (89#100) (87#100) (44#100)) southern_seasons;
   mkReg "Indian" (Rect (box_of (-90) 0 20 90)) (seasonal (59#100) (78#100) (105#100) (45#100)) southern_seasons;
   mkReg "West Pacific" (Rect (box_of (-90) 0 90 160)) (seasonal (72#100) (68#100) (117#100) (75#100)) southern_seasons;
   mkReg "Ross W" (Rect (box_of (-90) 0 160 180)) (seasonal (72#100) (67#100) (132#100) (82#100)) southern_seasons;
   mkReg "Baltic" (Rect (box_of 54 66 12 32)) (seasonal (30#100) (30#100) (30#100) (30#100)) northern_seasons;
   mkReg "None" (NorthWithout (box_of 54 66 12 32)) (seasonal (72#100) (67#100) (132#100) (82#100)) northern_seasons]%string.
(** 38-49 [Region.get_value] *)
Definition region_value (r : region_row) (m : Z) : res Q :=
  s <- lookup_month (rg_seasons r) m ;; Ok (rg_values r s).
(** 117-131: for every month of the dates a frame of all the dates.  pd.concat of
    no frames raises ValueError. *)
Definition region_rows (o : geometry) (g : geom o) (r : region_row) (dates : list Z) : res (list (lrow (geom o))) :=
  match dates with
  | [] => Err ValueError
  | _ => frames <- mapM (fun day => v <- region_value r (month day) ;; Ok (map (fun t => mkRow t g v) dates)) dates ;;
         Ok (List.concat frames)
  end.
(** 119-133: the loop's body *)
Definition add_region (o : geometry) (b : boundary) (dates : list Z) (acc : list (lrow (geom o))) (r : region_row) : res (list (lrow (geom o))) :=
  let g := g_inter o (g_shape o (rg_shape r)) (g_shape o (Rect b)) in
  if usable o g then rs <- region_rows o g r dates ;; Ok (acc ++ rs)%list else Ok acc.
(** 51-137 [import_data] *)
Definition thickness_data (o : geometry) (b : boundary) : res (list (lrow (geom o))) :=
  dates <- dates_of b ;;
  rows <- foldM (add_region o b dates) [] regions ;;
  match rows with
  | [] => Err KeyError
  | _ => Ok (sort_rows (drop_duplicates (row_eqb o) [] rows))
  end.

(** ** density.py 26-79 *)
Definition hemisphere (north : bool) : boundary := if north then box_of 0 90 (-180) 180 else box_of (-90) 0 (-180) 180.
Definition densities : season -> Q := seasonal 920 900 875 900.
Definition density_rows (o : geometry) (b : boundary) (dates : list Z) (north : bool) : res (list (lrow (geom o))) :=
  let g := g_inter o (g_shape o (Rect (hemisphere north))) (g_shape o (Rect b)) in
  mapM (fun t => s <- lookup_month (if north then northern_seasons else southern_seasons) (month t) ;;
                 Ok (mkRow t g (densities s))) dates.
Definition density_data (o : geometry) (b : boundary) : res (list (lrow (geom o))) :=
  dates <- dates_of b ;;
  n <- density_rows o b dates true ;;
  s <- density_rows o b dates false ;;
  Ok (sort_rows (drop_duplicates (row_eqb o) [] (filter (fun r => usable o (r_geom r)) (n ++ s)))).

(** ** abstract_lut.py *)
(** 131-169 [verify_data].  [data.loc[[index]]] is every row with that index; the
    result has a new index, so the times are gone.  A MultiPolygon's rows get its
    parts as geometries, of which there must be as many. *)
Definition with_geom {G} (r : lrow G) (g : G) : lrow G := mkRow (r_time r) g (r_val r).
Definition same_index {G} (rows : list (lrow G)) (t : Z) : list (lrow G) := filter (fun r => r_time r =? t) rows.
Definition verify_row (o : geometry) (rows : list (lrow (geom o))) (r : lrow (geom o)) : res (list (lrow (geom o))) :=
  match g_kind o (r_geom r) with
  | KPolygon => Ok (same_index rows (r_time r))
  | KMulti =>
      let parts := g_parts o (r_geom r) in
      let new_df := List.concat (map (fun _ => same_index rows (r_time r)) parts) in
      if Nat.eqb (List.length new_df) (List.length parts)
      then Ok (map (fun p => with_geom (fst p) (snd p)) (combine new_df parts)) else Err ValueError
  | KOther => Err ValueError
  end.
(** pd.concat of no frames raises ValueError.  The result's rows: geometry, value. *)
Definition verify_data (o : geometry) (rows : list (lrow (geom o))) : res (list (geom o * Q)) :=
  match rows with
  | [] => Err ValueError
  | _ => rs <- mapM (verify_row o rows) rows ;; Ok (map (fun r => (r_geom r, r_val r)) (List.concat rs))
  end.

(** 206-229 [trim_datapoints] once the index is no longer the time *)
Definition lut_trim (o : geometry) (b : boundary) (d : list (geom o * Q)) : list (geom o * Q) :=
  filter (fun p => g_intersects o (fst p) (g_shape o (Rect b))) d.
Definition lut_coverage (o : geometry) (b : boundary) (gs : list (geom o)) : Q :=
  match gs with [] => 0%Q | _ => g_covered o gs (g_shape o (Rect b)) end.
(** 231-309 [get_value] without NaN; [LRow] is a row of the table (MEDIAN returns
    one).  The weights column: [calculate_coverage] of all the geometries at once,
    the same number for every row; np.average raises ZeroDivisionError if the
    weights add up to 0. *)
Inductive lut_result (G : Type) := LNum (v : option Q) | LCount (n : Z) | LRow (r : G * Q).
Arguments LNum {G}. Arguments LCount {G}. Arguments LRow {G}.
Definition np_average (vs ws : list Q) : res Q :=
  let w := qsum ws in
  if qeqb w 0 then Err ZeroDivisionError
  else Ok (qsum (map (fun p => fst p * snd p)%Q (combine vs ws)) / w)%Q.
Fixpoint first_half {G} (d : list (G * Q)) (w acc half : Q) : option (G * Q) :=
  match d with
  | [] => None
  | r :: d' => if qleb half (acc + w) then Some r else first_half d' w (acc + w) half
  end.
Definition fold_q (f : Q -> Q -> Q) (l : list Q) : option Q := match l with [] => None | x :: l' => Some (fold_left f l' x) end.
Definition lut_value (o : geometry) (agg : string) (b : boundary) (d : list (geom o * Q)) : res (lut_result (geom o)) :=
  let ps := lut_trim o b d in
  let vs := map snd ps in
  let w := lut_coverage o b (map fst ps) in
  let ws := map (fun _ => w) ps in
  if String.eqb agg "COUNT" then Ok (LCount (Z.of_nat (List.length ps)))
  else match ps with
  | [] => Ok (LNum None)
  | _ =>
      if String.eqb agg "MIN" then Ok (LNum (fold_q (fun a b => if qltb b a then b else a) vs))
      else if String.eqb agg "MAX" then Ok (LNum (fold_q (fun a b => if qltb a b then b else a) vs))
      else if String.eqb agg "MEAN" then v <- np_average vs ws ;; Ok (LNum (Some v))
      else if String.eqb agg "MEDIAN" then
        match first_half ps w 0 (qsum ws / 2) with Some r => Ok (LRow r) | None => Err IndexError end
      else Err ValueError
  end.

(** 311-348 [get_hom_condition]; [touches_edge p b] is
    [p.boundary.intersects(bounds_polygon)].  (STD is left out above.) *)
Definition lut_hom (o : geometry) (touches_edge : geom o -> geom o -> bool) (b : boundary) (split_lock at_boundary : bool)
    (d : list (geom o * Q)) : hom :=
  let ps := map fst (lut_trim o b d) in
  let bp := g_shape o (Rect b) in
  if negb (existsb (fun p => g_intersects o p bp) ps) then (if split_lock then HOM else CLR)
  else if at_boundary then (if existsb (fun p => touches_edge p bp) ps then HET else CLR)
  else CLR.
