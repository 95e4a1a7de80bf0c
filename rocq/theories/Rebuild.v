(** Model of what a mesh file says about how the mesh was built, and of building it
    again from there: the entries of the configuration that MeshBuilder.__init__ and
    initialize_meta_data (meshiphi/mesh_generation/mesh_builder.py 80-88, 141-184)
    write back into the configuration, EnvironmentMesh.to_json
    (environment_mesh.py 1106) and rebuild_mesh_cli (meshiphi/cli.py 75-95).  No
    proofs here. *)
From Verif Require Import Base Geo Graph Cell Builder Env PyStr Dates Config Params Pipeline.
Open Scope string_scope.
Open Scope Z_scope.

(** mesh_builder.py 175-176: the list of files in the configuration becomes the one
    the loader read. *)
Definition with_files (p : params) (v : json) : params := if given p "files" then sset p "files" v else p.

Section Rebuild.
  Variable files : string -> option json.
  Variables (pad : bool) (now : Z).
  Variable sorted_glob : string -> list string.
  Variable float_text : string -> bool.
  Variable construct : nat -> string -> params -> boundary -> res (loader * data).
  (** [loader.files] of the k-th loader, made with these parameters. *)
  Variable loader_files : nat -> string -> params -> boundary -> json.

  (** factory.py 48-136 and the defaults: the class called for a source, and the
      parameters it is called with. *)
  Definition called (min_dp : Z) (name : string) (p : params) : res (string * params) :=
    cp <- get_dataloader sorted_glob name p min_dp ;;
    p <- add_default_params (fst cp) (snd cp) ;;
    Ok (fst cp, p).

  (** mesh_builder.py 157-176: [data_source] after its pass of the loop; the factory
      and the loader fill in the dictionary they are given. *)
  Definition stored_source (b : boundary) (min_dp : Z) (k : nat) (data_source : json) : res json :=
    name <- jget data_source "loader" ;; name <- as_str name ;;
    p <- jget data_source "params" ;; p <- as_obj p ;;
    cp <- called min_dp name p ;;
    o <- as_obj data_source ;;
    Ok (JObj (sset o "params" (JObj (with_files (snd cp) (loader_files k (fst cp) (snd cp) b))))).
  Definition stored_sources (b : boundary) (min_dp : Z) (l : list json) : res (list json) :=
    mapM (fun kj => stored_source b min_dp (fst kj) (snd kj)) (combine (seq 0 (List.length l)) l).

  (** mesh_builder.py 87-88 and 157-176: the configuration after __init__. *)
  Definition stored_config (config : json) : res json :=
    b <- from_json pad now config ;;
    o <- as_obj config ;;
    r <- jget config "region" ;; r <- as_obj r ;;
    s <- jget (JObj r) "start_time" ;; s <- as_str s ;;
    e <- jget (JObj r) "end_time" ;; e <- as_str e ;;
    texts <- time_texts pad now [s; e] ;;
    t0 <- py_nth texts 0 ;; t1 <- py_nth texts 1 ;;
    let o := sset o "region" (JObj (sset (sset r "start_time" (JStr t0)) "end_time" (JStr t1))) in
    match sget o "data_sources" with
    | None => Ok (JObj o)
    | Some l =>
        min_dp <- splitting_entry config "minimum_datapoints" 5 ;;
        l <- as_arr l ;;
        l <- stored_sources b min_dp l ;;
        Ok (JObj (sset o "data_sources" (JArr l)))
    end.

  (** [MeshBuilder(config).build_environmental_mesh()]: the mesh, and its [config]. *)
  Definition build (fuel : nat) (config : json) : res (emesh * json) :=
    em <- generate files pad now sorted_glob float_text construct fuel config ;;
    c <- stored_config config ;;
    Ok (em, c).
  (** cli.py 85-89 [rebuild_mesh_cli], from the object read from the mesh file. *)
  Definition rebuild_mesh (fuel : nat) (mesh_json : json) : res (emesh * json) :=
    c <- jget mesh_json "config" ;; c <- jget c "mesh_info" ;; build fuel c.
End Rebuild.

(** environment_mesh.py 1106: the configuration as it stands in a mesh file; the
    other entries [rest] of the file are those of Env.to_json. *)
Definition mesh_file (c : json) (rest : sdict json) : json := JObj (("config", JObj [("mesh_info", c)]) :: rest).
(** environment_mesh.py 221-225: merging appends the other mesh's configuration. *)
Definition merged_config (c c2 : json) : res json :=
  o <- as_obj c ;;
  l <- match sget o "merged" with Some l => as_arr l | None => Ok [] end ;;
  Ok (JObj (sset o "merged" (JArr (l ++ [c2])))).
