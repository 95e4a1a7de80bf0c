(** Model of the command line tools: [create_mesh_cli], [rebuild_mesh_cli],
    [export_mesh_cli] and [merge_mesh_cli] (cli.py 75-199) on the files of a disk, with the
    arguments of [get_args] (13-73).  No proofs here. *)
From Verif Require Import Base Geo Graph Cell Loaders Builder Env PyStr Dates Config Params Pipeline Rebuild Export.

Open Scope string_scope.
Open Scope Z_scope.

(** What is in a file: a JSON value, a mesh with the configuration in it, anything else
    that an export has written, or nothing. *)
Inductive content (Out : Type) := Json (j : json) | MeshFile (c : json) (m : mesh_json) | Exported (o : Out) | Empty.
Arguments Json {Out} j. Arguments MeshFile {Out} c m. Arguments Exported {Out} o. Arguments Empty {Out}.
Definition disk (Out : Type) := sdict (content Out).
(** The end of a command: exit of the program, the exit of argparse with a message about
    its arguments, or an exception. *)
Inductive status := Finished | Usage | Raised (e : exn).
(** The arguments; an output that is not named is None (18-44, 59-73). *)
Inductive command :=
| Create (config : string) (output : option string)
| RebuildMesh (mesh : string) (output : option string)
| ExportMesh (mesh format : string) (conf : option string) (output : option string)
| Merge (mesh merge : string) (directory : bool) (output : option string).
(** When a command is run: the day, the other files, and standard input. *)
Record moment (Out : Type) := mkMoment {
  at_now : Z; at_glob : string -> list string;
  at_construct : nat -> string -> params -> boundary -> res (loader * data);
  at_read : nat -> string -> params -> boundary -> json;
  at_stdin : content Out }.
Arguments mkMoment {Out}. Arguments at_now {Out}. Arguments at_glob {Out}. Arguments at_construct {Out}. Arguments at_read {Out}. Arguments at_stdin {Out}.

Definition or_default (o : option string) (d : string) : string := match o with Some s => s | None => d end.
(** cli.py 80, 104, 124-147, 166 *)
Definition output_of (c : command) : string :=
  match c with
  | Create _ o => or_default o "create_mesh.output.json"
  | RebuildMesh _ o => or_default o "rebuild_mesh.output.json"
  | ExportMesh _ f _ o => or_default o (Export.default_output f)
  | Merge _ _ _ o => or_default o "merged_mesh.output.json"
  end.

Section Cli.
  Context {Out : Type}.
  Variables (files : string -> option json) (pad : bool) (ft : string -> bool) (fuel : nat).
  (** The other entries of a mesh file as JSON; a JSON value taken for a mesh; what was
      exported taken for JSON. *)
  Variable rest : mesh_json -> sdict json.
  Variable parse_mesh : json -> res (json * mesh_json).
  Variable parse_other : Out -> res json.
  (** The operating system: files that cannot be written, and the files in a directory. *)
  Variable refuses : string -> option exn.
  Variable listdir : list string -> string -> res (list string).
  (** The exports of environment_mesh.py 1144-1300, of a mesh, with the parameter file, on
      the disk. *)
  Variable to_geo : emesh -> option string -> disk Out -> res Out.
  Variables to_tif to_png : emesh -> option string -> disk Out -> Export.on_disk Out * res unit.

  (** [argparse.FileType("r")] *)
  Definition open_arg (now : moment Out) (d : disk Out) (name : string) : option (content Out) :=
    if String.eqb name "-" then Some (at_stdin now) else sget d name.
  (** [args.mesh.name] *)
  Definition name_of (name : string) : string := if String.eqb name "-" then "<stdin>" else name.
  (** [json.load] *)
  Definition json_of (v : content Out) : res json :=
    match v with Json j => Ok j | MeshFile c m => Ok (mesh_file c (rest m)) | Exported o => parse_other o | Empty => Err ValueError end.
  Definition mesh_of (v : content Out) : res (json * mesh_json) :=
    match v with MeshFile c m => Ok (c, m) | _ => j <- json_of v ;; parse_mesh j end.
  Definition open_read (d : disk Out) (path : string) : res (content Out) :=
    match sget d path with Some v => Ok v | None => Err FileNotFoundError end.

  (** [json.dump(info, open(args.output, "w"), indent=4)]; [info] is complete by then *)
  Definition write (d : disk Out) (out : string) (v : res (content Out)) : disk Out * status :=
    match v with
    | Err e => (d, Raised e)
    | Ok v => match refuses out with Some e => (d, Raised e) | None => (sset d out v, Finished) end
    end.
  Definition built (now : moment Out) (j : json) : res (content Out) :=
    r <- build files pad (at_now now) (at_glob now) ft (at_construct now) (at_read now) fuel j ;;
    Ok (MeshFile (snd r) (to_json (fst r))).
  (** cli.py 172-194, environment_mesh.py 211-260 *)
  Definition merge_path (d : disk Out) (cm : json * emesh) (path : string) : res (json * emesh) :=
    v <- open_read d path ;;
    f <- mesh_of v ;;
    m2 <- load_from_json (snd f) ;;
    r <- merge_mesh (snd cm) m2 ;;
    c <- merged_config (fst cm) (fst f) ;;
    Ok (c, fst r).

  Definition run (now : moment Out) (c : command) (d : disk Out) : disk Out * status :=
    let out := output_of c in
    match c with
    | Create config _ =>
        match open_arg now d config with None => (d, Usage) | Some v => write d out (j <- json_of v ;; built now j) end
    | RebuildMesh mesh _ =>
        match open_arg now d mesh with
        | None => (d, Usage)
        | Some v => write d out (j <- json_of v ;; c <- jget j "config" ;; c <- jget c "mesh_info" ;; built now c)
        end
    | ExportMesh mesh format conf _ =>
        match open_arg now d mesh with
        | None => (d, Usage)
        | Some v =>
            match (f <- mesh_of v ;; em <- load_from_json (snd f) ;; Ok (fst f, em)) with
            | Err e => (d, Raised e)
            | Ok (c, em) =>
                let opens := existsb (String.eqb (PyStr.upper format)) ["JSON"; "GEOJSON"] in
                match (if opens then refuses out else None) with
                | Some e => (d, Raised e)
                | None =>
                    (* [with open(path, 'w')] has emptied the file when the export begins *)
                    let d0 := if opens then sset d out Empty else d in
                    let r := Export.save (fun p => match to_tif em p d with (Export.Written o, x) => (Export.Written (Exported o), x) | (Export.Emptied, x) => (Export.Emptied, x) | (Export.Untouched, x) => (Export.Untouched, x) end)
                               (fun p => o <- to_geo em p d0 ;; Ok (Exported o)) (MeshFile c (to_json em))
                               (fun p => match to_png em (Some p) d with (Export.Written o, x) => (Export.Written (Exported o), x) | (Export.Emptied, x) => (Export.Emptied, x) | (Export.Untouched, x) => (Export.Untouched, x) end)
                               format conf in
                    (match fst r with Export.Untouched => d | Export.Emptied => sset d out Empty | Export.Written v => sset d out v end,
                     match snd r with Ok _ => Finished | Err e => Raised e end)
                end
            end
        end
    | Merge mesh merge directory _ =>
        match open_arg now d mesh with
        | None => (d, Usage)
        | Some v =>
            write d out (
              _ <- open_read d (name_of mesh) ;;
              f <- mesh_of v ;;
              m1 <- load_from_json (snd f) ;;
              paths <- (if directory : bool then listdir (map fst d) merge else Ok [merge]) ;;
              r <- foldM (merge_path d) (fst f, m1) paths ;;
              Ok (MeshFile (fst r) (to_json (snd r))))
        end
    end.

  (** A session: commands one after the other. *)
  Definition session (l : list (moment Out * command)) (d : disk Out) : disk Out :=
    fold_left (fun d mc => fst (run (fst mc) (snd mc) d)) l d.
End Cli.
