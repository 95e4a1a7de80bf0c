(** Model of the plotter: MeshPlotter (mesh_plotter.py 10-75) and EnvironmentMesh.to_png
    (environment_mesh.py 1120-1142), as the list of what is painted, in order.  No proofs
    here.

    Simplifications: numbers are exact rationals, NaN or an infinity, as in Export.v; the
    parameter file is read; a painting abandoned by an exception is not saved and so not
    returned.  A matplotlib colour map is its number of colours. *)
From Coq Require Import String.
From Verif Require Import Base Geo Cell Env Export.
Open Scope Z_scope.

(** [a - b] and [a / b] of numpy numbers *)
Definition fopp (a : fnum) : fnum := match a with Fin q => Fin (- q) | NaN => NaN | PInf => NInf | NInf => PInf end.
Definition fsub (a b : fnum) : fnum := fadd a (fopp b).
Definition fdiv (a b : fnum) : fnum :=
  match a, b with
  | NaN, _ | _, NaN => NaN
  | Fin p, Fin q => if qeqb q 0 then (if qeqb p 0 then NaN else if qltb p 0 then NInf else PInf) else Fin (p / q)
  | Fin _, _ => Fin 0
  | _, PInf | _, NInf => NaN
  | PInf, Fin q => if qltb q 0 then NInf else PInf
  | NInf, Fin q => if qltb q 0 then PInf else NInf
  end.
(** [a < b], and [Series.min()], [Series.max()]: NaN is skipped *)
Definition flt (a b : fnum) : bool :=
  match a, b with
  | Fin p, Fin q => qltb p q
  | NInf, Fin _ | NInf, PInf | Fin _, PInf => true
  | _, _ => false
  end.
Definition fmin2 (a b : fnum) : fnum := match a, b with NaN, x | x, NaN => x | _, _ => if flt b a then b else a end.
Definition fmax2 (a b : fnum) : fnum := match a, b with NaN, x | x, NaN => x | _, _ => if flt a b then b else a end.
Definition smin (l : list fnum) : fnum := fold_left fmin2 l NaN.
Definition smax (l : list fnum) : fnum := fold_left fmax2 l NaN.

(** What a call of [cmap] answers: entry [k] of the map, or its colours for values below,
    above, or unknown. *)
Inductive shade := Entry (k : Z) | Under | Over | Bad.
Definition cmap_at (n : Z) (x : fnum) : shade :=
  match x with
  | NaN => Bad
  | PInf => Over
  | NInf => Under
  | Fin q => if qltb q 0 then Under else if qltb 1 q then Over
             else if qeqb q 1 then Entry (n - 1) else Entry (Qfloor (q * inject_Z n))
  end.
Inductive paint := Plain (colour : string) | Mapped (cmap : string) (s : shade).
Definition painting := list (polygon * paint).

(** [mesh_json['cellboxes']] *)
Definition geometry (r : sdict xval) : res polygon :=
  match sget r "geometry" with Some (XGeom p) => Ok p | Some _ => Err TypeError | None => Err KeyError end.
Definition entry (r : sdict xval) (n : string) : res xval :=
  match sget r n with Some v => Ok v | None => Err KeyError end.
(** [v == True] *)
Definition is_true (v : xval) : bool :=
  match v with XBool b => b | XNum (Fin q) => qeqb q 1 | _ => false end.

(** 35-45 [plot_bool] *)
Definition plot_bool (rows : list (sdict xval)) (value_name colour : string) (p : painting) : res painting :=
  foldM (fun p r => polygon <- geometry r ;;
                    v <- entry r value_name ;;
                    Ok (if is_true v then (p ++ [(polygon, Plain colour)])%list else p)) p rows.

(** Numbers and flags can be subtracted; a column of flags alone cannot (numpy). *)
Definition as_number (v : option xval) : option fnum :=
  match v with
  | None => Some NaN
  | Some (XNum x) => Some x
  | Some (XBool b) => Some (Fin (if b then 1 else 0))
  | Some _ => None
  end.
Fixpoint all_some {A} (l : list (option A)) : option (list A) :=
  match l with
  | [] => Some []
  | Some a :: l => match all_some l with Some r => Some (a :: r) | None => None end
  | None :: _ => None
  end.
Section Plotter.
  Variable colormaps : string -> option Z.

  (** 47-67 [plot_cmap].  Columns that mix flags and numbers hold Python objects, whose
      division by zero raises. *)
  Definition plot_cmap (rows : list (sdict xval)) (value_name colourmap : string) (p : painting) : res painting :=
    let col := column rows value_name in
    if negb (existsb (String.eqb value_name) (columns rows)) then Err KeyError
    else match all_some (map as_number col) with
    | None => Err TypeError
    | Some l =>
        match dtype_of col with
        | DBool => Err TypeError
        | dt =>
            let value_min := smin l in
            let value_max := smax l in
            let value_diff := fsub value_max value_min in
            match colormaps colourmap with
            | None => Err KeyError
            | Some n =>
                foldM (fun p r =>
                  v <- entry r value_name ;;
                  x <- match as_number (Some v) with Some x => Ok x | None => Err TypeError end ;;
                  normalized <- match dt, value_diff with
                                | DObj, Fin q => if qeqb q 0 then Err ZeroDivisionError else Ok (fdiv (fsub x value_min) value_diff)
                                | _, _ => Ok (fdiv (fsub x value_min) value_diff)
                                end ;;
                  polygon <- geometry r ;;
                  Ok (p ++ [(polygon, Mapped colourmap (cmap_at n normalized))])%list) p rows
            end
        end
    end.

  (** 15-32 [__init__]: the width of the figure over its height.  matplotlib refuses figures
      of negative size with ValueError. *)
  Definition new_plotter (lat_min lat_max long_min long_max : Q) : res Q :=
    if qeqb (lat_max - lat_min) 0 then Err ZeroDivisionError
    else let aspect := ((long_max - long_min) / (lat_max - lat_min))%Q in
         if qltb aspect 0 then Err ValueError else Ok aspect.

  (** to_png (1120-1142), with the region of the configuration and the entries "cmaps" and
      "bools" of the parameters *)
  Definition to_png (region : boundary) (cs : list xcell) (cmaps bools : option (list (string * string))) : res painting :=
    let rows := map x_row cs in
    _ <- new_plotter (lat_min region) (lat_max region) (long_min region) (long_max region) ;;
    cmaps <- match cmaps with Some l => Ok l | None => Err KeyError end ;;
    p <- foldM (fun p i => plot_cmap rows (fst i) (snd i) p) [] cmaps ;;
    bools <- match bools with Some l => Ok l | None => Err KeyError end ;;
    foldM (fun p i => plot_bool rows (fst i) (snd i) p) p bools.
End Plotter.
