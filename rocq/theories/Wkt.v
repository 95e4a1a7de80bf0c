(** Model of the text form of boundaries (boundary.py 51-102, 395-405).  No proofs
    here.

    How numbers are written and read is a parameter: [fmt] is the text shapely
    writes for a coordinate, [float] Python's [float(...)] ([None]: ValueError).
    [to_polygon] (340-393) first formats and parses the numbers itself; that
    Python's float repr is read back by shapely unchanged is assumed. *)
From Verif Require Import Base Geo Graph Cell Builder Env PyStr.
Open Scope string_scope.

Section Numbers.
  Context (fmt : Q -> string) (float : string -> option Q).

  (** shapely's WKT of a point, a ring and a polygon:
      POLYGON ((x y, x y, ...)) and MULTIPOLYGON (((...)), ((...))). *)
  Definition wkt_point (p : Q * Q) : string := fmt (fst p) ++ " " ++ fmt (snd p).
  Definition wkt_ring (r : ring) : string := join ", " (map wkt_point r).
  Definition wkt (p : polygon) : string :=
    match p with
    | Poly r => "POLYGON ((" ++ wkt_ring r ++ "))"
    | MPoly rs => "MULTIPOLYGON (((" ++ join ")), ((" (map wkt_ring rs) ++ ")))"
    end.
  (** boundary.py 395-405 [to_poly_string] *)
  Definition to_poly_string (b : boundary) : string := wkt (to_polygon b).

  (** [float(coord.split(" ")[i])] *)
  Definition coord (i : Z) (c : string) : res Q :=
    w <- py_nth (split " " c) i ;;
    match float w with Some q => Ok q | None => Err ValueError end.

  Fixpoint qlist_eqb (a b : list Q) : bool :=
    match a, b with
    | [], [] => true
    | x :: a', y :: b' => qeqb x y && qlist_eqb a' b'
    | _, _ => false
    end.
  (** [min(l)], [max(l)] *)
  Definition py_min (l : list Q) : res Q := match l with [] => Err ValueError | _ => Ok (min_list l) end.
  Definition py_max (l : list Q) : res Q := match l with [] => Err ValueError | _ => Ok (max_list l) end.

  (** boundary.py 51-102 [from_poly_string] *)
  Definition from_poly_string (s : string) : res boundary :=
    if contains "MULTIPOLYGON" s then
      s <- py_nth (split "MULTIPOLYGON (((" s) 1 ;;
      s <- py_nth (split ")))" s) 0 ;;
      match split ")), ((" s with
      | [pos; neg] =>
          let pos := map lstrip (split "," pos) in
          let neg := map lstrip (split "," neg) in
          pos_x <- mapM (coord 0) pos ;;
          pos_y <- mapM (coord 1) pos ;;
          neg_x <- mapM (coord 0) neg ;;
          neg_y <- mapM (coord 1) neg ;;
          if qlist_eqb pos_y neg_y then
            lat_min <- py_min pos_y ;;
            lat_max <- py_max pos_y ;;
            long_min <- py_min pos_x ;;
            long_max <- py_max neg_x ;;
            Boundary [lat_min; lat_max] [long_min; long_max] []
          else Err AssertionError
      | _ => Err AssertionError
      end
    else
      s <- py_nth (split "POLYGON ((" s) 1 ;;
      s <- py_nth (split "))" s) 0 ;;
      let coords := split ", " s in
      x <- mapM (coord 0) coords ;;
      y <- mapM (coord 1) coords ;;
      lat_min <- py_min y ;;
      lat_max <- py_max y ;;
      long_min <- py_min x ;;
      long_max <- py_max x ;;
      Boundary [lat_min; lat_max] [long_min; long_max] [].
End Numbers.
