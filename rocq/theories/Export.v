(** Model of the export of a mesh: EnvironmentMesh.to_geojson (environment_mesh.py
    1144-1197), to_png (1120-1142) up to the plotter, save (1470-1502) and
    export_mesh_cli (cli.py 118-155).  No proofs here.

    Simplifications: numbers in columns are exact rationals, NaN or an infinity;
    a geometry is its polygon rather than its WKT text (Wkt.v has the text); text
    columns have dtype object (pandas before 3); the JSON text itself is not
    modelled. *)
From Coq Require Import String.
From Verif Require Import Base Geo Graph Cell Builder Env PyStr.
Open Scope Z_scope.

(** Entries of a cell: those of a loaded mesh and those added by [update_cellbox]. *)
Inductive fnum := Fin (q : Q) | NaN | PInf | NInf.
Inductive xval := XNum (v : fnum) | XBool (b : bool) | XList (l : list fnum) | XText (s : string) | XId (z : Z) | XGeom (p : polygon).
Record xcell := mkXC { x_bounds : boundary; x_data : sdict xval; x_id : Z }.

(** aggregated_cellbox.py 119-150 [to_json] *)
Definition x_row (c : xcell) : sdict xval :=
  let b := x_bounds c in
  sset (supdate [ ("geometry"%string, XGeom (to_polygon b));
                  ("cx"%string, XNum (Fin (getcx b)));
                  ("cy"%string, XNum (Fin (getcy b)));
                  ("dcx"%string, XNum (Fin (getdcx b)));
                  ("dcy"%string, XNum (Fin (getdcy b))) ] (x_data c))
       "id"%string (XId (x_id c)).

(** 1168 [pd.DataFrame(list of dict)]: the columns in order of first appearance; an
    entry a row does not have is NaN. *)
Definition add_name (acc : list string) (n : string) : list string :=
  if existsb (String.eqb n) acc then acc else (acc ++ [n])%list.
Definition columns (rows : list (sdict xval)) : list string :=
  fold_left (fun acc r => fold_left add_name (map fst r) acc) rows [].
Definition column (rows : list (sdict xval)) (n : string) : list (option xval) := map (fun r => sget r n) rows.
Inductive dtype := DBool | DNum | DObj.
Definition is_bool (v : option xval) : bool := match v with Some (XBool _) => true | _ => false end.
Definition is_num (v : option xval) : bool := match v with None | Some (XNum _) => true | _ => false end.
Definition dtype_of (col : list (option xval)) : dtype :=
  if forallb is_bool col then DBool else if forallb is_num col then DNum else DObj.

(** [np.mean] *)
Definition fadd (a b : fnum) : fnum :=
  match a, b with
  | NaN, _ | _, NaN => NaN
  | PInf, NInf | NInf, PInf => NaN
  | PInf, _ | _, PInf => PInf
  | NInf, _ | _, NInf => NInf
  | Fin p, Fin q => Fin (p + q)
  end.
Definition fmean (l : list fnum) : fnum :=
  match l with
  | [] => NaN
  | _ => match fold_left fadd l (Fin 0) with Fin q => Fin (q / inject_Z (Z.of_nat (List.length l))) | x => x end
  end.
Definition mean_of (v : option xval) : res fnum :=
  match v with
  | None => Ok NaN
  | Some (XNum x) => Ok x
  | Some (XBool b) => Ok (Fin (if b then 1 else 0))
  | Some (XList l) => Ok (fmean l)
  | Some _ => Err TypeError
  end.
(** 1181-1187.  [dtype == list] is [dtype == np.dtype(list)], which is dtype object. *)
Definition export_column (col : list (option xval)) : res (list fnum) :=
  match dtype_of col with
  | DObj => mapM mean_of col
  | DBool => Ok (map (fun v => match v with Some (XBool true) => Fin 1 | _ => NaN end) col)
  | DNum => Ok (map (fun v => match v with Some (XNum x) => x | _ => NaN end) col)
  end.
(** 1189-1190, and [GeoDataFrame.to_json], which writes NaN as null *)
Definition or_null (x : fnum) : option Q := match x with Fin q => Some q | _ => None end.

Inductive prop := PId (z : Z) | PVal (v : option Q).
Record feature := mkF { f_index : nat; f_props : sdict prop; f_geom : polygon }.

(** 1170-1187: [None] is a dropped column; "geometry" is not a property *)
Definition export_one (layer : option string) (rows : list (sdict xval)) (n : string) : res (option (string * list prop)) :=
  if String.eqb n "geometry" then Ok None
  else if String.eqb n "id" then
    Ok (Some (n, map (fun v => match v with Some (XId z) => PId z | _ => PVal None end) (column rows n)))
  else if match layer with Some d => negb (String.eqb n d) | None => false end then Ok None
  else if existsb (String.eqb n) ["cx"; "cy"; "dcx"; "dcy"]%string then Ok None
  else l <- export_column (column rows n) ;; Ok (Some (n, map (fun x => PVal (or_null x)) l)).
Fixpoint somes {A} (l : list (option A)) : list A :=
  match l with [] => [] | Some a :: l => a :: somes l | None :: l => somes l end.

(** 1144-1197 [to_geojson]; [layer] is "data_name" of the parameter file *)
Definition to_geojson (layer : option string) (cs : list xcell) : res (list feature) :=
  let rows := map x_row cs in
  cols <- mapM (export_one layer rows) (columns rows) ;;
  let cols := somes cols in
  match cs with [] => Err KeyError | _ =>     (* 1192: no column "geometry" *)
    geoms <- mapM (fun v => match v with Some (XGeom p) => Ok p | _ => Err TypeError end) (column rows "geometry") ;;
    Ok (map (fun kp => mkF (fst kp) (map (fun nc => (fst nc, nth (fst kp) (snd nc) (PVal None))) cols) (snd kp))
            (combine (seq 0 (List.length cs)) geoms))
  end.

(** 1470-1502 [save].  What the call leaves at the path and whether it raises.  The
    TIF writer and the plotter are parameters; [to_png] (1120-1142) uses its
    parameters whether they were read or not, before anything is written. *)
Inductive on_disk (Out : Type) := Untouched | Emptied | Written (o : Out).
Arguments Untouched {Out}. Arguments Emptied {Out}. Arguments Written {Out} o.
Section Save.
  Context {P Out : Type}.
  Variables (to_tif : option P -> on_disk Out * res unit) (to_geo : option P -> res Out) (json : Out)
            (plot : P -> on_disk Out * res unit).
  Definition to_png (params : option P) : on_disk Out * res unit :=
    match params with Some p => plot p | None => (Untouched, Err UnboundLocalError) end.
  (** [with open(path, 'w') as path: json.dump(e, path)]: the file is emptied, then [e]
      is evaluated *)
  Definition dump (e : res Out) : on_disk Out * res unit :=
    match e with Ok o => (Written o, Ok tt) | Err x => (Emptied, Err x) end.
  Definition save (format : string) (params : option P) : on_disk Out * res unit :=
    let f := upper format in
    if String.eqb f "TIF" then to_tif params
    else if String.eqb f "JSON" then dump (Ok json)
    else if String.eqb f "GEOJSON" then dump (to_geo params)
    else if String.eqb f "PNG" then to_png params
    else (Untouched, Ok tt).
End Save.

(** cli.py 118-147: the output used when none is named *)
Definition default_output (format : string) : string :=
  let f := upper format in
  if String.eqb f "GEOJSON" then "mesh_geo.json"
  else if String.eqb f "TIF" then "mesh.tif"
  else if String.eqb f "PNG" then "mesh.png"
  else "mesh.json".
