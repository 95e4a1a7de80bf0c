(** Model of [merge_mesh_cli] (cli.py 157-199): merging one mesh file, or all files
    of a directory, into a mesh file. *)
From Verif Require Import Base Geo Graph Cell Builder Env.
Open Scope Z_scope.

(** cli.py 176-187, from the objects read from the files, in the order of
    [os.listdir], which is arbitrary. *)
Definition merge_file (m : emesh) (f : mesh_json) : res emesh :=
  m2 <- load_from_json f ;;
  r <- merge_mesh m m2 ;;
  Ok (fst r).
Definition merge_files (m : emesh) (fs : list mesh_json) : res emesh := foldM merge_file m fs.

(** cli.py 169-199.  Without --directory the list is the one file (188-194).
    Nothing is written unless every merge succeeds. *)
Definition merge_mesh_cli (mesh1 : mesh_json) (fs : list mesh_json) : res mesh_json :=
  m <- load_from_json mesh1 ;;
  m <- merge_files m fs ;;
  Ok (to_json m).
