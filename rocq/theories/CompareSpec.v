(** Specification of rounding to significant figures and of comparing two mesh
    files. *)
From Verif Require Import Base Geo Cell PyStr Dates Config Compare.
From Coq Require Qabs Permutation.
Open Scope string_scope.
Open Scope Z_scope.

(** ** Significant figures *)
(** y can be written with at most s significant decimal digits. *)
Definition has_sigfigs (s : Z) (y : Q) : Prop := exists m k : Z, Z.abs m < 10 ^ s /\ (y == inject_Z m * pow10 k)%Q.
(** No such number is closer to x than y is. *)
Definition nearest (s : Z) (x y : Q) : Prop :=
  has_sigfigs s y /\ forall z, has_sigfigs s z -> (Qabs.Qabs (x - y) <= Qabs.Qabs (x - z))%Q.

(** ** Mesh files *)
(** The number a value stands for: True and False are 1 and 0. *)
Definition number (j : json) : option Q :=
  match j with
  | JFloat q => Some q
  | JInt z => Some (inject_Z z)
  | JBool true => Some 1%Q
  | JBool false => Some 0%Q
  | _ => None
  end.
(** Equality of JSON values: numbers by value, dictionaries as mappings. *)
Inductive jeq : json -> json -> Prop :=
| jeq_null : jeq JNull JNull
| jeq_num a b x y : number a = Some x -> number b = Some y -> (x == y)%Q -> jeq a b
| jeq_str s : jeq (JStr s) (JStr s)
| jeq_arr l l' : Forall2 jeq l l' -> jeq (JArr l) (JArr l')
| jeq_obj o o' : List.length o = List.length o' ->
    (forall k v, In (k, v) o -> exists w, sget o' k = Some w /\ jeq v w) -> jeq (JObj o) (JObj o').

(** A JSON value whose dictionaries have distinct keys, as json.load makes them. *)
Inductive loaded : json -> Prop :=
| loaded_null : loaded JNull
| loaded_bool b : loaded (JBool b)
| loaded_int z : loaded (JInt z)
| loaded_float q : loaded (JFloat q)
| loaded_str s : loaded (JStr s)
| loaded_arr l : Forall loaded l -> loaded (JArr l)
| loaded_obj o : NoDup (map fst o) -> Forall (fun kv => loaded (snd kv)) o -> loaded (JObj o).

(** The cell with geometry g of a file. *)
Definition cell_at (m : mesh_file) (g : string) (c : cell) : Prop := In c (f_cells m) /\ sget c "geometry" = Some (JStr g).
Definition has_cell (m : mesh_file) (g : string) : Prop := exists c, cell_at m g c.
(** Mesh files as to_json writes them: at least one cell; every cell has a
    geometry and distinct keys; no two cells have the same geometry; so for the
    neighbour graph. *)
Definition mesh_ok (m : mesh_file) : Prop :=
  f_cells m <> [] /\
  (forall c, In c (f_cells m) -> exists g, sget c "geometry" = Some (JStr g)) /\
  (forall c, In c (f_cells m) -> loaded (JObj c)) /\
  NoDup (map geometry_of (f_cells m)) /\
  NoDup (map fst (f_graph m)) /\ (forall n d, In (n, d) (f_graph m) -> NoDup (map fst d)).

(** The file has an attribute of that name (in some cell). *)
Definition has_attribute (m : mesh_file) (s : string) : Prop := exists c, In c (f_cells m) /\ In s (map fst c).
(** pandas keeps the column as floats: only numbers, or numbers with gaps. *)
Definition float_column (m : mesh_file) (s : string) : Prop :=
  (forall c, In c (f_cells m) -> match value c s with JInt _ | JFloat _ | JNull => True | _ => False end) /\
  ((exists c q, In c (f_cells m) /\ value c s = JFloat q) \/
   (exists c z, In c (f_cells m) /\ value c s = JInt z) /\ (exists c, In c (f_cells m) /\ value c s = JNull)).
(** What the comparison sees of attribute s of a cell: in such a column the
    number to four figures; elsewhere a list of floats to four figures, and
    anything else as it is. *)
Definition seen (m : mesh_file) (s : string) (v v' : json) : Prop :=
  (float_column m s -> match number v with Some q => v' = JFloat (sigfig_float q 4) | None => v' = v end) /\
  (~ float_column m s ->
     (forall l, v = JArr (map JFloat l) -> v' = JArr (map (fun q => JFloat (sigfig_float q 4)) l)) /\
     ((forall l, v <> JArr (map JFloat l)) -> v' = v)).

(** Two files disagree about attribute s of the cell with geometry g. *)
Definition disagree (m1 m2 : mesh_file) (g s : string) : Prop :=
  exists c1 c2 v1 v2, cell_at m1 g c1 /\ cell_at m2 g c2 /\
    seen m1 s (value c1 s) v1 /\ seen m2 s (value c2 s) v2 /\ ~ jeq v1 v2.

(** The same neighbours in every direction, in whatever order. *)
Definition same_neighbours (a b : sdict (list Z)) : Prop :=
  forall d, match sget a d, sget b d with
            | Some l, Some l' => Permutation.Permutation l l'
            | None, None => True
            | _, _ => False
            end.
