(** Model of test_automater.py 345-445: keeping the meshes
    of the tests that show a difference.  No proofs here. *)
From Coq Require Import String Ascii.
From Verif Require Import Base Geo Cell PyStr Dates Config Compare Automate.
Open Scope string_scope.
Open Scope Z_scope.

(** [os.path.splitext(name)] of a file name: at the last dot, unless only dots are before it. *)
Fixpoint last_dot (s : string) : option (string * string) :=
  match s with
  | "" => None
  | String c r =>
      match last_dot r with
      | Some (a, e) => Some (String c a, e)
      | None => if Ascii.eqb c "." then Some ("", s) else None
      end
  end.
Fixpoint only_dots (s : string) : bool :=
  match s with "" => true | String c r => Ascii.eqb c "." && only_dots r end.
Definition splitext (s : string) : string * string :=
  match last_dot s with
  | Some (b, e) => if only_dots b then (s, "") else (b, e)
  | None => (s, "")
  end.

(** A file of a directory: the two meshes of a test, or anything else.  A directory: its
    files by name. *)
Inductive file := Pair (old new : mesh_file) | Other (s : string).
Definition dir := sdict file.
Definition removed (d : dir) (name : string) : dir := filter (fun kv => negb (String.eqb (fst kv) name)) d.

(** 345-362 [extract_test_meshes] *)
Definition extract_test_meshes (d : dir) (name : string) : res (mesh_file * mesh_file) :=
  match sget d name with
  | Some (Pair o n) => Ok (o, n)
  | Some (Other _) => Err ValueError
  | None => Err FileNotFoundError
  end.
(** [df.empty] *)
Definition frame_empty (f : frame) : bool :=
  match f_rows f, f_cols f with [], _ => true | _, [] => true | _, _ => false end.
(** 364-389 [compare_meshes], and 421-423: which of the four comparisons are empty.  (The
    frame of the neighbour graphs has at least the column id when a row is in it.) *)
Definition compare_meshes (old new : mesh_file) : res (list bool) :=
  _ <- indexed (f_cells new) ;;
  b <- boundaries_frame old new ;;
  v <- values_frame old new ;;
  a <- attributes_frame old new ;;
  g <- graph_labels old new ;;
  Ok [frame_empty b; frame_empty v; frame_empty a; match g with [] => true | _ => false end].

(** 410-443: one file of the directory *)
Definition save_one (dirs : dir * dir) (name : string) : res (dir * dir) :=
  let '(tmp, out) := dirs in
  let '(base, ext) := splitext name in
  if negb (String.eqb ext ".json") then Ok dirs
  else
    on <- extract_test_meshes tmp (base ++ ".json") ;;
    identical <- compare_meshes (fst on) (snd on) ;;
    if forallb (fun e => e) identical then Ok (removed (removed tmp (base ++ ".json")) (base ++ ".svg"), out)
    else
      let out := sset out (base ++ ".json") (Pair (fst on) (snd on)) in
      Ok (tmp, match sget tmp (base ++ ".svg") with Some plot => sset out (base ++ ".svg") plot | None => out end).
(** 391-443 [save_tests].  [listing] is [os.listdir(tmp_dir)], in the system's order; the
    two directories are different ones.  397-407: the files asked for are collected, and
    then not used. *)
Definition save_tests (rs : results) (passes fails errors : bool) (listing : list string) (tmp out : dir) : res (dir * dir) :=
  let '(ps, fs, es) := rs in
  let reference_files := ((if passes then map ti_reference ps else []) ++ (if fails then map ti_reference fs else []) ++
                          (if errors then map ti_reference es else []))%list in
  let _ := map basename reference_files in
  foldM save_one (tmp, out) listing.
