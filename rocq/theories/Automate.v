(** Model of meshiphi/test_automation/test_automater.py, of the tables of tests in
    meshiphi/__init__.py 17-41 and of [meshiphi_test_cli] (cli.py 203-278): which tests
    are run and what is reported.  No proofs here.

    Not modelled: the mesh comparison of the output of regression tests (its comparisons
    are those of Compare.v), the plots, the output folder, logging. *)
From Verif Require Import Base Cell PyStr.
Open Scope string_scope.

(** ** Strings *)
(** [s.replace(old, new)] *)
Definition replace (old new s : string) : string := join new (split old s).
(** [s.split()] *)
Fixpoint words (s : string) : list string :=
  match s with
  | "" => []
  | String c s' =>
      if is_space c then words s'
      else match s' with
           | "" => [String c ""]
           | String d _ => if is_space d then String c "" :: words s'
                           else match words s' with w :: ws => String c w :: ws | [] => [String c ""] end
           end
  end.
(** [os.path.basename] *)
Definition basename (p : string) : string := last (split "/" p) "".
(** [os.path.join(dir, name)] for a directory without a final slash and a relative name *)
Definition path_join (dir name : string) : string := dir ++ "/" ++ name.

(** ** Tables of tests: __init__.py 17-41 *)
Definition test_table := list (string * list string).
Definition REGRESSION_TESTS_BY_FILE : test_table :=
  [ ("mesh_builder.py", ["test_mesh.py"]); ("mesh.py", ["test_mesh.py"]); ("neighbour_graph.py", ["test_mesh.py"]);
    ("metadata.py", ["test_mesh.py"]); ("aggregated_cellbox.py", ["test_mesh.py"]); ("boundary.py", ["test_mesh.py"]);
    ("cellbox.py", ["test_mesh.py"]); ("direction.py", ["test_mesh.py"]); ("environment_mesh.py", ["test_mesh.py"]) ].
Definition UNIT_TESTS_BY_FILE : test_table :=
  [ ("mesh_builder.py", ["test_mesh_builder.py"]); ("mesh.py", []); ("neighbour_graph.py", ["test_neighbour_graph.py"]);
    ("metadata.py", []); ("aggregated_cellbox.py", ["test_aggregated_cellbox.py"]); ("boundary.py", ["test_boundary.py"]);
    ("cellbox.py", ["test_cellbox.py"]); ("direction.py", []); ("environment_mesh.py", ["test_env_mesh.py"]); ("cli.py", ["test_cli.py"]) ].

(** ** Results: 631-639 *)
Record test_info := mkTI { ti_file : string; ti_test : string; ti_reference : string; ti_status : string }.
(** Passes, fails, errors. *)
Definition results := (list test_info * list test_info * list test_info)%type.
Definition no_results : results := ([], [], []).
Definition more_results (a b : results) : results :=
  ((fst (fst a) ++ fst (fst b))%list, (snd (fst a) ++ snd (fst b))%list, (snd a ++ snd b)%list).

(** 213-255 [parse_pytest_stdout]: one line of the summary *)
Definition parse_line (line : string) : res results :=
  match words (replace "]" " " (replace "[" " " (replace "::" " " line))) with
  | status :: file :: method :: reference :: _ =>
      let ti := mkTI file (basename method) reference status in
      if String.eqb status "PASSED" then Ok ([ti], [], [])
      else if String.eqb status "FAILED" then Ok ([], [ti], [])
      else if String.eqb status "ERROR" then Ok ([], [], [ti])
      else Err ValueError
  | _ => Err IndexError
  end.
Fixpoint from_summary (lines : list string) : res (list string) :=
  match lines with
  | [] => Err IndexError
  | l :: ls => if contains "short test summary info" l then Ok lines else from_summary ls
  end.
Definition newline : string := String (ascii_of_nat 10) "".
Definition parse_pytest_stdout (stdout : string) : res results :=
  lines <- from_summary (split newline stdout) ;;
  foldM (fun acc line => if contains "::" line then r <- parse_line line ;; Ok (more_results acc r) else Ok acc) no_results lines.

(** ** Changed files *)
(** The tracked files of a commit, or of the working tree, with their contents. *)
Definition tree := list (string * string).
Definition content_eqb (a b : option string) : bool :=
  match a, b with None, None => true | Some x, Some y => String.eqb x y | _, _ => false end.
(** [git diff --name-only]: one line per file that was added, removed or changed *)
Definition git_diff (a b : tree) : string :=
  String.concat "" (map (fun p => p ++ newline)
    (filter (fun p => negb (content_eqb (sget a p) (sget b p))) (nodup string_dec (map fst a ++ map fst b)))).

Section Automater.
  (** git: the commit a name stands for, its files, and the merge base of two commits; the
      working tree. *)
  Context {commit : Type}.
  Variable resolve : string -> commit.
  Variable files_of : commit -> tree.
  Variable merge_base : commit -> commit -> commit.
  Variable work : tree.
  (** The order in which a [set] lists its members; what pytest writes for a test file; the
      directory of the repository. *)
  Variable listed : list string -> list string.
  Variable pytest : string -> string.
  Variable repo_dir : string.

  (** 270-318 [get_diff_filenames].  [git diff X] compares X with the working tree;
      [git diff --merge-base A B] compares the merge base of A and B with B. *)
  Definition get_diff_filenames (from_branch into_branch : option string) : list string :=
    let into := match into_branch with Some b => b | None => "main" end in
    let out := match from_branch with
               | None | Some "" => git_diff (files_of (resolve into)) work
               | Some from => git_diff (files_of (merge_base (resolve from) (resolve into))) (files_of (resolve into))
               end in
    filter (fun f => negb (String.eqb f "")) (split newline out).

  (** 320-342 [get_relevant_tests] *)
  Definition get_relevant_tests (diff_file : string) (table : test_table) : list string :=
    List.concat (map snd (filter (fun e => String.eqb (fst e) (basename diff_file)) table)).

  (** 91-141 [_run_tests] *)
  Definition tests_to_run (diff_files : list string) (table : test_table) : list string :=
    listed (List.concat (map (fun f => get_relevant_tests f table) diff_files)).
  Definition run_tests (diff_files : list string) (test_dir : string) (table : test_table) (acc : results) : res results :=
    foldM (fun acc test => r <- parse_pytest_stdout (pytest (path_join test_dir test)) ;; Ok (more_results acc r)) acc (tests_to_run diff_files table).

  (** 21-89 [__init__] *)
  Definition automate (from_branch into_branch : option string) (regression unit : bool) : res results :=
    let diff_files := get_diff_filenames from_branch into_branch in
    r <- (if regression then run_tests diff_files (path_join (path_join repo_dir "tests") "regression_tests") REGRESSION_TESTS_BY_FILE no_results else Ok no_results) ;;
    if unit then run_tests diff_files (path_join (path_join repo_dir "tests") "unit_tests") UNIT_TESTS_BY_FILE r else Ok r.

  (** 612-629 [summarise_test_stats]: per test file the numbers of passes and of tests *)
  Definition summarise (r : results) : list (string * (nat * nat)) :=
    let all_tests := (fst (fst r) ++ snd (fst r) ++ snd r)%list in
    map (fun f => let statuses := map ti_status (filter (fun t => String.eqb (ti_file t) f) all_tests) in
                  (f, (count_occ string_dec statuses "PASSED", List.length statuses)))
        (listed (map ti_file all_tests)).

  (** cli.py 203-278 [meshiphi_test_cli]: flags -r and -u, one or two branches *)
  Definition meshiphi_test (branch_a : string) (branch_b : option string) (r u : bool) : res results :=
    let (reg, unit) := if xorb r u then (r, u) else (true, true) in
    match branch_b with
    | Some b => automate (Some branch_a) (Some b) reg unit
    | None => automate None (Some branch_a) reg unit
    end.
End Automater.
