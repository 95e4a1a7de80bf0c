(** Property theorem C75: a mesh file says how to build its mesh again.  [files],
    [pad], [now], [glob], [ft] and [construct] as in PropsPipe; [read] gives the
    files a loader says it read.  Primes mark the second time: another day, other
    directories, other files.  Statements only; the proofs are in RebuildProofs.v. *)
From Verif Require Import Base Geo Graph Cell Loaders Builder Env Spec EnvSpec DataSpec Dates DateSpec CalProofs DateProofs Config ConfigSpec ConfigProofs Params ParamSpec Files Pipeline PipeSpec Rebuild RebuildSpec RebuildProofs PropsPipe ExamplesEnv.
Open Scope string_scope.
Open Scope Z_scope.

(** C75.  Rebuilding a mesh from its own file gives the same mesh and the same
    configuration, on any later day and whatever is in the directories, provided
    each source names its files in one way and the files that were read give the
    same data again. *)
Theorem C75_rebuild_partial : forall files files' pad now now' glob glob' ft construct construct' read read' fuel cfg em c s rest,
  build files pad now glob ft construct read fuel cfg = Ok (em, c) ->
  says cfg s -> year_ok (today_of now) -> Forall one_way (s_loaders s) ->
  (forall b k name p0 cls p q, from_json pad now cfg = Ok b -> nth_error (s_loaders s) k = Some (name, p0) ->
     called glob (s_points s) name p0 = Ok (cls, p) -> files_replaced p (read k cls p b) q ->
     construct' k cls q b = construct k cls p b /\ read' k cls q b = read k cls p b) ->
  rebuild_mesh files' pad now' glob' ft construct' read' fuel (mesh_file c rest) = Ok (em, c).
Proof.
  intros. unfold rebuild_mesh, mesh_file. cbn [jget sget String.eqb Ascii.eqb Bool.eqb bind].
  apply (rebuilt files files' pad now now' glob glob' ft construct construct' read read' fuel cfg em c s); auto.
  intros b k [name p0] Fj N cls p C. apply (H3 b k name p0 cls p); auto. apply with_files_replaced.
Qed.
Print Assumptions C75_rebuild_partial.

(** What the file says: the configured grid and loaders, the dates as dates, and
    for each source the parameters its loader was called with and the files read. *)
Theorem C75_file_says : forall files pad now glob ft construct read fuel cfg em c s,
  build files pad now glob ft construct read fuel cfg = Ok (em, c) ->
  says cfg s -> year_ok (today_of now) -> Forall one_way (s_loaders s) ->
  exists b s', from_json pad now cfg = Ok b /\ says c s' /\ same_grid s s' /\
    parse_datetime pad now (s_start s) = Ok (s_start s') /\ parse_datetime pad now (s_end s) = Ok (s_end s') /\
    (forall now', from_json pad now' c = Ok b) /\
    map fst (s_loaders s') = map fst (s_loaders s) /\
    forall k name p0, nth_error (s_loaders s) k = Some (name, p0) ->
      exists cls p q, called glob (s_points s) name p0 = Ok (cls, p) /\ nth_error (s_loaders s') k = Some (name, q) /\
        files_replaced p (read k cls p b) q /\ sget q "file" = None /\ sget q "folder" = None.
Proof. exact file_says. Qed.
Print Assumptions C75_file_says.

(** The choice of files by date chooses all of the files it chose before. *)
Theorem C75_files : forall t0 t1 l r,
  (era5_files t0 t1 l = Ok r -> era5_files t0 t1 r = Ok r) /\
  (amsr_files t0 t1 l = Ok r -> amsr_files t0 t1 r = Ok r) /\
  (ecmwf t0 t1 l = Ok r -> ecmwf t0 t1 r = Ok r).
Proof. intros. split; [apply era5_again|]. split; [apply amsr_again|]. apply ecmwf_again. Qed.
Print Assumptions C75_files.

(** ** A case: dates relative to today, and a folder of which one file is read *)
Definition today_config (west east : Z) (source : list (string * json)) : json :=
  JObj [("region", JObj [("lat_min", JInt 0); ("lat_max", JInt 10); ("long_min", JInt west); ("long_max", JInt east);
                         ("start_time", JStr "TODAY - 3"); ("end_time", JStr "TODAY");
                         ("cell_width", JInt 10); ("cell_height", JInt 10)]);
        ("data_sources", JArr [JObj [("loader", JStr "Scalar_CSV");
           ("params", JObj (source ++ [("splitting_conditions", JArr [pipe_condition])])%list)]]);
        ("splitting", JObj [("split_depth", JInt 1); ("minimum_datapoints", JInt 2)])].
Definition today_settings (west east : Z) (source : list (string * json)) : settings :=
  mkSettings 0 10 (inject_Z west) (inject_Z east) "TODAY - 3" "TODAY" 10 10 1 2 [("Scalar_CSV", (source ++ [("splitting_conditions", JArr [pipe_condition])])%list)].
Lemma today_says west east source : says (today_config west east source) (today_settings west east source).
Proof.
  unfold today_config. do 4 eexists. split; [reflexivity|]. split; [reflexivity|]. split.
  - unfold region_says, number_at, text_at, only_keys. cbn [s_lat_min s_lat_max s_long_min s_long_max s_start s_end s_width s_height today_settings].
    repeat split; try (eexists; split; [reflexivity|]; match goal with |- number (JInt ?z) _ => exact (num_int z) end).
    cbn [In]. intros k v H. repeat (destruct H as [[= <- _]|H]; [tauto|]). destruct H.
  - split; [reflexivity|]. split.
    + constructor; [|constructor]. eexists. split; [reflexivity|]. unfold text_at, only_keys. cbn [fst snd]. repeat split.
      cbn [In]. intros k v H. repeat (destruct H as [[= <- _]|H]; [tauto|]). destruct H.
    + split; [reflexivity|]. unfold whole_at, only_keys. cbn [s_depth s_points today_settings]. repeat split.
      * eexists. split; [reflexivity|constructor].
      * eexists. split; [reflexivity|constructor].
      * cbn [In]. intros k v H. repeat (destruct H as [[= <- _]|H]; [tauto|]). destruct H.
Qed.
(** A loader that has nothing to read in a list without a.csv, and that reads only
    a.csv. *)
Definition a_files (p : params) : bool :=
  match sget p "files" with Some (JArr l) => existsb (fun j => match j with JStr s => String.eqb s "data/a.csv" | _ => false end) l | _ => false end.
Definition a_construct (k : nat) (cls : string) (p : params) (b : boundary) : res (loader * data) :=
  Ok (feed_loader (fun q => q) k pipe_feed, if a_files p then f_data pipe_feed else []).
Definition a_read (k : nat) (cls : string) (p : params) (b : boundary) : json :=
  if a_files p then JArr [JStr "data/a.csv"] else JArr [].
(** 17 May 2024, and 40 days later. *)
Definition day1 : Z := 739023 * us_per_day + 54000000000.
Definition day2 : Z := day1 + 40 * us_per_day.
Definition data_dir (s : string) : list string := if String.eqb s "data/*" then ["data/a.csv"; "data/b.csv"] else [].
Example C75_case : let cfg := today_config 0 20 [("folder", JStr "data")] in let s := today_settings 0 20 [("folder", JStr "data")] in
  says cfg s /\ year_ok (today_of day1) /\ Forall one_way (s_loaders s) /\
  (forall b k name p0 cls p q, from_json false day1 cfg = Ok b -> nth_error (s_loaders s) k = Some (name, p0) ->
     called data_dir (s_points s) name p0 = Ok (cls, p) -> files_replaced p (a_read k cls p b) q ->
     a_construct k cls q b = a_construct k cls p b /\ a_read k cls q b = a_read k cls p b) /\
  exists em r d p, build (fun _ => None) false day1 data_dir (fun _ => false) a_construct a_read 100 cfg = Ok (em, JObj
      [("region", JObj r); ("data_sources", JArr [JObj [("loader", JStr "Scalar_CSV"); ("params", JObj d)]]); p]) /\
    List.length (em_cells em) = 5%nat /\
    sget r "start_time" = Some (JStr "2024-05-14") /\ sget r "end_time" = Some (JStr "2024-05-17") /\
    sget d "files" = Some (JArr [JStr "data/a.csv"]) /\ sget d "folder" = None /\ sget d "min_dp" = Some (JInt 2) /\
    (exists em', build (fun _ => None) false day2 (fun _ => []) (fun _ => false) a_construct a_read 100 cfg = Ok em' /\ List.length (em_cells (fst em')) = 2%nat).
Proof.
  cbv zeta. split; [apply today_says|]. split; [vm_compute; split; discriminate|]. split.
  { constructor; [|constructor]. split; [|left; reflexivity]. cbn. repeat constructor; cbn; intuition discriminate. }
  split.
  { intros b k name p0 cls p q _ N C (Hk & Ho & Hf). destruct k as [|[|k]]; try discriminate. cbn [nth_error today_settings s_loaders] in N. injection N as <- <-.
    assert (E : sget p "files" = Some (JArr [JStr "data/a.csv"; JStr "data/b.csv"])).
    { vm_compute in C. injection C as _ <-. reflexivity. }
    assert (A : a_files p = true) by (unfold a_files; rewrite E; reflexivity).
    rewrite E in Hf. specialize (Hf ltac:(discriminate)). unfold a_read at 1 in Hf. rewrite A in Hf.
    assert (A' : a_files q = true) by (unfold a_files; rewrite Hf; reflexivity).
    unfold a_construct, a_read. rewrite A, A'. auto. }
  do 4 eexists. split; [vm_compute; reflexivity|]. split; [reflexivity|]. repeat (split; [reflexivity|]).
  eexists. split; [vm_compute; reflexivity|reflexivity].
Qed.

(** ** Where it fails *)
Definition build_at (c : json) : emesh * json :=
  match build (fun _ => None) false day1 data_dir (fun _ => false) a_construct a_read 100 c with Ok x => x | Err _ => (no_env, JNull) end.
Definition reload (x : emesh * json) : emesh := match load_from_json (to_json (fst x)) with Ok m => m | Err _ => no_env end.
Definition get_pair (x : res (emesh * emesh)) : emesh * emesh := match x with Ok x => x | Err _ => (no_env, no_env) end.
Definition stored (west east : Z) : json := snd (build_at (today_config west east [("file", JStr "data/a.csv")])).
(** A merged mesh is not rebuilt: from the file of the merged mesh one gets the mesh
    it was merged into.  Here the meshes are those of two configurations. *)
Theorem C75_merged_refuted :
  (forall files pad now glob ft construct read fuel c em s c2 c3 rest, says c s ->
     build files pad now glob ft construct read fuel c = Ok (em, c) -> merged_config c c2 = Ok c3 ->
     rebuild_mesh files pad now glob ft construct read fuel (mesh_file c3 rest) = Ok (em, c3)) /\
  exists em em2 l l2 m m2 s c2 c3 c,
    build (fun _ => None) false day1 data_dir (fun _ => false) a_construct a_read 100 c = Ok (em, c) /\ says c s /\
    build (fun _ => None) false day1 data_dir (fun _ => false) a_construct a_read 100 c2 = Ok (em2, c2) /\
    load_from_json (to_json em) = Ok l /\ load_from_json (to_json em2) = Ok l2 /\ merge_mesh l l2 = Ok (m, m2) /\ merged_config c c2 = Ok c3 /\
    rebuild_mesh (fun _ => None) false day1 data_dir (fun _ => false) a_construct a_read 100 (mesh_file c3 []) = Ok (em, c3) /\
    map e_id (em_cells m) <> map e_id (em_cells em).
Proof.
  split; [exact merged_rebuilt_file|].
  pose (c := stored 0 30). pose (c2 := stored 10 20).
  assert (S20 : exists s, says c s) by (apply mesh_valid; vm_compute; reflexivity). destruct S20 as (s & Sy).
  exists (fst (build_at c)), (fst (build_at c2)), (reload (build_at c)), (reload (build_at c2)).
  exists (fst (get_pair (merge_mesh (reload (build_at c)) (reload (build_at c2))))), (snd (get_pair (merge_mesh (reload (build_at c)) (reload (build_at c2))))).
  exists s, c2, (match merged_config c c2 with Ok x => x | Err _ => JNull end), c.
  split; [vm_compute; reflexivity|]. split; [exact Sy|]. do 6 (split; [vm_compute; reflexivity|]). vm_compute. discriminate.
Qed.
Print Assumptions C75_merged_refuted.

(** A source with both "file" and "folder": the first time the file is read, the
    second time the folder. *)
Theorem C75_folder_refuted : exists cfg s em c em' c',
  says cfg s /\ build (fun _ => None) false day1 data_dir (fun _ => false) a_construct a_read 100 cfg = Ok (em, c) /\
  rebuild_mesh (fun _ => None) false day1 data_dir (fun _ => false) a_construct a_read 100 (mesh_file c []) = Ok (em', c') /\
  List.length (em_cells em) = 2%nat /\ List.length (em_cells em') = 5%nat.
Proof.
  exists (today_config 0 20 [("file", JStr "other/b.csv"); ("folder", JStr "data")]). do 5 eexists.
  split; [apply today_says|]. split; [vm_compute; reflexivity|]. split; [vm_compute; reflexivity|]. split; reflexivity.
Qed.
Print Assumptions C75_folder_refuted.
