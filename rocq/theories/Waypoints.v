(** Model of [validate_waypoints] (config_validator.py 161-198) and of the names it
    requires (waypoints_schema.py 1).  No proofs here.

    Simplifications: column names are not repeated, and a csv file is its header and rows of
    cells, each as long as the header.  Which texts pandas takes for missing values, numbers
    and flags are parameters, the same in [read_csv] and [to_numeric]. *)
From Coq Require Import String.
From Verif Require Import Base Cell.
Open Scope string_scope.

Inductive wnum := WFin (q : Q) | WInf.
Inductive wval := WNum (x : wnum) | WNaN | WBool (b : bool) | WStr (s : string) | WNone.
(** A DataFrame: the name and values of its index, and its columns. *)
Record frame := mkFrame { fr_name : option string; fr_index : list wval; fr_cols : sdict (list wval) }.
Record csv := mkCsv { csv_header : list string; csv_rows : list (list string) }.
Inductive argument := APath (p : string) | AFrame (f : frame) | AOther.

Definition waypoints_columns : list string := ["Name"; "Lat"; "Long"; "Source"; "Destination"].

(** [DataFrame.reset_index()]: the index becomes a column *)
Definition reset_index (f : frame) : res (sdict (list wval)) :=
  let has n := existsb (String.eqb n) (map fst (fr_cols f)) in
  let name := match fr_name f with Some n => n | None => if has "index" then "level_0" else "index" end in
  if has name then Err ValueError else Ok ((name, fr_index f) :: fr_cols f).

Section Validate.
  Variables (missing : string -> bool) (number : string -> option wnum) (flag : string -> option bool).
  Variable opened : string -> option csv.

  (** [pd.read_csv]: the type of a column follows from all of its cells *)
  Definition text_column (cells : list string) : list wval :=
    if forallb (fun s => missing s || match number s with Some _ => true | None => false end) cells
    then map (fun s => if missing s then WNaN else match number s with Some x => WNum x | None => WNaN end) cells
    else if forallb (fun s => negb (missing s) && match flag s with Some _ => true | None => false end) cells
    then map (fun s => match flag s with Some b => WBool b | None => WNaN end) cells
    else map (fun s => if missing s then WNaN else WStr s) cells.
  Definition read_csv (path : string) : res frame :=
    match opened path with
    | None => Err FileNotFoundError
    | Some c =>
        match csv_header c with
        | [] => Err ValueError     (* EmptyDataError *)
        | h => Ok (mkFrame None (map (fun i => WNum (WFin (inject_Z (Z.of_nat i)))) (seq 0 (List.length (csv_rows c))))
                    (map (fun kn => (snd kn, text_column (map (fun row => nth (fst kn) row "") (csv_rows c)))) (combine (seq 0 (List.length h)) h)))
        end
    end.

  (** ['X' in set(column)] *)
  Definition marked (col : list wval) : bool := existsb (fun v => match v with WStr s => String.eqb s "X" | _ => false end) col.
  (** [pd.to_numeric(column, errors='coerce').notnull().all()] *)
  Definition not_null (v : wval) : bool :=
    match v with
    | WNum _ | WBool _ => true
    | WStr s => negb (missing s) && match number s with Some _ => true | None => false end
    | WNaN | WNone => false
    end.

  Definition assert_ (b : bool) : res unit := if b then Ok tt else Err AssertionError.
  Definition get_column (d : sdict (list wval)) (n : string) : res (list wval) :=
    match sget d n with Some c => Ok c | None => Err KeyError end.

  (** 161-198 *)
  Definition validate_waypoints (a : argument) : res unit :=
    df <- match a with
          | APath p => f <- read_csv p ;; reset_index f
          | AFrame f => reset_index f
          | AOther => Err TypeError
          end ;;
    _ <- assert_ (forallb (fun c => existsb (String.eqb c) (map fst df)) waypoints_columns) ;;
    source <- get_column df "Source" ;;
    _ <- assert_ (marked source) ;;
    destination <- get_column df "Destination" ;;
    _ <- assert_ (marked destination) ;;
    lat <- get_column df "Lat" ;;
    _ <- assert_ (forallb not_null lat) ;;
    long <- get_column df "Long" ;;
    assert_ (forallb not_null long).
End Validate.
