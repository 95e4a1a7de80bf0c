(** Model of the names of data columns: abstract_scalar.py 68-75, 814-936,
    abstract_vector.py 65-74, 814-926 and abstract_lut.py 361-404.  No proofs here.

    A table lists its columns, each with its name; a Dataset lists its coordinates and
    its data variables. *)
From Verif Require Import Base Geo Cell PyStr.
Open Scope string_scope.

Section Tables.
  Context {V : Type}.
  Definition table := list (string * V).
  Definition standard (n : string) : bool := String.eqb n "lat" || String.eqb n "long" || String.eqb n "time".
  Definition data_names (t : table) : list string := filter (fun n => negb (standard n)) (map fst t).
  (** [data.rename(columns=d)]: every column named in the dictionary, no other check. *)
  Definition rename (d : list (string * string)) (t : table) : table :=
    map (fun c => (match sget d (fst c) with Some n => n | None => fst c end, snd c)) t.

  (** abstract_scalar.py 828-851 *)
  Definition only_name (l : list string) : res string := match l with [n] => Ok n | _ => Err ValueError end.
  Definition get_name_df (t : table) : res string := only_name (data_names t).
  (** abstract_scalar.py 892-909, 926-936 *)
  Definition set_name_df (new_name : string) (t : table) : res table :=
    old <- get_name_df t ;; Ok (rename [(old, new_name)] t).
  (** abstract_scalar.py 68-75 *)
  Definition name_source_df (data_name : option string) (t : table) : res (string * table) :=
    match data_name with
    | None => n <- get_name_df t ;; Ok (n, t)
    | Some n => t' <- set_name_df n t ;; Ok (n, t')
    end.

  (** Datasets: abstract_scalar.py 853-871, 910-925.  [data.rename(d)] raises ValueError if
      two coordinates or variables would have the same name, or if a name to be replaced
      does not exist. *)
  Fixpoint repeats (l : list string) : bool :=
    match l with [] => false | n :: l' => existsb (String.eqb n) l' || repeats l' end.
  Definition rename_xr (d : list (string * string)) (coords : list string) (t : table) : res table :=
    if negb (forallb (fun p => existsb (String.eqb (fst p)) (coords ++ map fst t)) d) then Err ValueError
    else if repeats (map (fun n => match sget d n with Some m => m | None => n end) (coords ++ map fst t)) then Err ValueError
    else Ok (rename d t).
  Definition get_name_xr (t : table) : res string := only_name (map fst t).
  Definition set_name_xr (new_name : string) (coords : list string) (t : table) : res table :=
    old <- get_name_xr t ;; rename_xr [(old, new_name)] coords t.

  (** abstract_vector.py 824-835, 853-862 *)
  Definition get_names_df (t : table) : string := join "," (data_names t).
  (** abstract_vector.py 864-903: the dictionary is built in the order of the columns, a
      later entry replacing an earlier one. *)
  Fixpoint name_dict (olds news : list string) : list (string * string) :=
    match olds, news with o :: olds', n :: news' => name_dict olds' news' ++ [(o, n)] | _, _ => [] end.
  Definition set_names_df (new_names : list string) (t : table) : res table :=
    let old_names := split "," (get_names_df t) in
    if Nat.eqb (List.length old_names) (List.length new_names) then Ok (rename (name_dict old_names new_names) t)
    else Err AssertionError.
  (** abstract_vector.py 65-74 *)
  Definition name_vector_df (data_name : option string) (t : table) : res (list string * table) :=
    match data_name with
    | None => Ok (split "," (get_names_df t), t)
    | Some n => t' <- set_names_df (split "," n) t ;; Ok (split "," n, t')
    end.
  (** abstract_vector.py 905-926: a text is handed on, whose length and items are those
      of its characters. *)
  Definition set_name_list_df (new_names : list string) (t : table) : res table :=
    if negb (Nat.eqb (List.length new_names) 2) then Err AssertionError
    else set_names_df (map (fun c => String c "") (list_ascii_of_string (join "," new_names))) t.

  (** abstract_lut.py 361-404: [set] removes duplicates; [rename] without [columns=]
      renames index labels, which are numbers, so no column changes. *)
  Definition lut_names (t : table) : list string :=
    nodup string_dec (filter (fun n => negb (String.eqb n "time" || String.eqb n "geometry")) (map fst t)).
  Definition get_name_lut (t : table) : res string := match lut_names t with [n] => Ok n | _ => Err AssertionError end.
  Definition set_name_lut (new_name : string) (t : table) : res table := old <- get_name_lut t ;; Ok t.
End Tables.
Arguments table : clear implicits.
