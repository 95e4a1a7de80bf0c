(** Property theorem C94: sessions of the command line tools.  Parameters as in Cli.v; a
    session is any list of commands, each at its own moment. *)
From Coq Require Import Permutation.
From Verif Require Import Base Geo Graph Cell Loaders Builder Env Spec EnvSpec DataSpec PyStr Dates DateSpec CalProofs DateProofs Config ConfigSpec ConfigProofs Params ParamSpec Files Pipeline PipeSpec Rebuild RebuildSpec RebuildProofs PropsPipe PropsRebuild
  ExamplesEnv EnvInv EnvJson MergeDir MergeDirSpec MergeDirProofs PropsMergeDir PropsEnv Export Cli.
Open Scope string_scope.
Open Scope Z_scope.

(** Configurations to which a merge can append (environment_mesh.py 221-225). *)
Definition appendable (c : json) : Prop := exists o, c = JObj o /\ forall v, sget o "merged" = Some v -> exists l, v = JArr l.
(** The configuration in the file of a mesh into which others were merged. *)
Inductive with_merged : json -> list json -> json -> Prop :=
| wm_nil c : with_merged c [] c
| wm_cons o l c2 cs c' : (sget o "merged" = Some (JArr l) \/ sget o "merged" = None /\ l = []) ->
    with_merged (JObj (sset o "merged" (JArr (l ++ [c2])%list))) cs c' -> with_merged (JObj o) (c2 :: cs) c'.

Lemma sget_sset_same {V} (d : sdict V) k v : sget (sset d k v) k = Some v.
Proof. rewrite sget_sset, String.eqb_refl. reflexivity. Qed.
Lemma sget_sset_other {V} (d : sdict V) k v k' : k' <> k -> sget (sset d k v) k' = sget d k'.
Proof. intros N. rewrite sget_sset, (proj2 (String.eqb_neq _ _) N). reflexivity. Qed.

Section CliProps.
Context {Out : Type}.
Variables (files : string -> option json) (pad : bool) (ft : string -> bool) (fuel : nat).
Variable rest : mesh_json -> sdict json.
Variable parse_mesh : json -> res (json * mesh_json).
Variable parse_other : Out -> res json.
Variable refuses : string -> option exn.
Variable listdir : list string -> string -> res (list string).
Variable to_geo : emesh -> option string -> disk Out -> res Out.
Variables to_tif to_png : emesh -> option string -> disk Out -> on_disk Out * res unit.
Notation run := (@Cli.run Out files pad ft fuel rest parse_mesh parse_other refuses listdir to_geo to_tif to_png).
Notation session := (@Cli.session Out files pad ft fuel rest parse_mesh parse_other refuses listdir to_geo to_tif to_png).
Notation built_at now := (build files pad (at_now now) (at_glob now) ft (at_construct now) (at_read now) fuel).

Lemma write_other d out v path : out <> path -> sget (fst (write (Out := Out) refuses d out v)) path = sget d path.
Proof. intros N. unfold write. destruct v; [|reflexivity]. destruct (refuses out); [reflexivity|]. cbn [fst]. apply sget_sset_other. congruence. Qed.
Lemma run_other now c d path : output_of c <> path -> sget (fst (run now c d)) path = sget d path.
Proof.
  intros N. destruct c as [config o|mesh o|mesh format conf o|mesh merge dir o]; cbn [Cli.run]; destruct (open_arg now d _) as [v|]; try reflexivity; try (apply write_other; exact N).
  match goal with |- context [match ?m with Ok _ => _ | Err _ => _ end] => destruct m as [(c, em)|]; [|reflexivity] end.
  match goal with |- context [match ?m with Some _ => _ | None => _ end] => destruct m; [reflexivity|] end. cbn [fst].
  match goal with |- context [match ?m with Untouched => _ | Emptied => _ | Written _ => _ end] => destruct m end; try reflexivity; apply sget_sset_other; congruence.
Qed.
(** Files that no command of the session writes to are as they were. *)
Theorem C94_only_outputs : forall l d path, (forall now c, In (now, c) l -> output_of c <> path) -> sget (session l d) path = sget d path.
Proof.
  induction l as [|(now, c) l IH]; intros d path H; [reflexivity|]. unfold Cli.session. cbn [fold_left fst snd]. fold (session l (fst (run now c d))).
  rewrite IH by (intros now' c' I; apply (H now' c'); right; exact I). apply run_other, (H now c). left. reflexivity.
Qed.

(** Building, rebuilding and merging write all or nothing: what is not finished has
    changed nothing, and what is finished has written a mesh. *)
Theorem C94_all_or_nothing : forall now c d, (forall mesh format conf o, c <> ExportMesh mesh format conf o) ->
  (snd (run now c d) <> Finished -> fst (run now c d) = d) /\
  (snd (run now c d) = Finished -> exists j m, fst (run now c d) = sset d (output_of c) (MeshFile j m)).
Proof.
  assert (W : forall d out (v : res (content Out)), (forall x, v = Ok x -> exists j m, x = MeshFile j m) ->
    (snd (write refuses d out v) <> Finished -> fst (write refuses d out v) = d) /\
    (snd (write refuses d out v) = Finished -> exists j m, fst (write refuses d out v) = sset d out (MeshFile j m))).
  { intros d out v H. unfold write. destruct v as [x|]; [|split; [reflexivity|discriminate]]. destruct (refuses out); cbn [fst snd]; [split; [reflexivity|discriminate]|].
    split; [congruence|]. intros _. destruct (H x eq_refl) as (j & m & ->). eauto. }
  assert (B : forall now j x, built files pad ft fuel now j = Ok x -> exists j m, x = @MeshFile Out j m).
  { intros now j x E. unfold built in E. destruct (build _ _ _ _ _ _ _ _ _) as [r|]; [|discriminate]. injection E as <-. eauto. }
  intros now c d N. destruct c as [config o|mesh o|mesh format conf o|mesh merge dir o]; [| |exfalso; eapply N; reflexivity|]; cbn [Cli.run];
    (destruct (open_arg now d _) as [v|]; [apply W|split; [reflexivity|discriminate]]); intros x E;
    repeat (match type of E with bind ?m _ = _ => destruct m; [cbn [bind] in E|discriminate] end); [apply (B _ _ _ E)|apply (B _ _ _ E)|injection E as <-; eauto].
Qed.

(** A mesh built from a configuration file stands in the output. *)
Theorem C94_create : forall now d config j em c o, config <> "-" -> sget d config = Some (Json j) -> built_at now j = Ok (em, c) ->
  let out := output_of (Create config o) in refuses out = None ->
  run now (Create config o) d = (sset d out (MeshFile c (to_json em)), Finished).
Proof.
  intros now d config j em c o N E B out R. cbn [Cli.run]. unfold open_arg. rewrite (proj2 (String.eqb_neq _ _) N), E. cbn [json_of bind]. unfold built. rewrite B. cbn [bind fst snd]. unfold write. fold out. rewrite R. reflexivity.
Qed.

(** Built, and at any later time rebuilt: the same file, if each source names its files
    in one way and the files read give the same data again (C75). *)
Theorem C94_rebuild_partial : forall now now' l d config out out' j em c s,
  config <> "-" -> sget d config = Some (Json j) -> built_at now j = Ok (em, c) -> refuses out = None -> refuses out' = None -> out <> "-" ->
  says j s -> year_ok (today_of (at_now now)) -> Forall one_way (s_loaders s) ->
  (forall b k name p0 cls p q, from_json pad (at_now now) j = Ok b -> nth_error (s_loaders s) k = Some (name, p0) ->
     called (at_glob now) (s_points s) name p0 = Ok (cls, p) -> files_replaced p (at_read now k cls p b) q ->
     at_construct now' k cls q b = at_construct now k cls p b /\ at_read now' k cls q b = at_read now k cls p b) ->
  (forall now c, In (now, c) l -> output_of c <> out) ->
  let d' := session ((now, Create config (Some out)) :: l ++ [(now', RebuildMesh out (Some out'))]) d in
  sget d' out' = Some (MeshFile c (to_json em)) /\ sget d' out = Some (MeshFile c (to_json em)).
Proof.
  intros now now' l d config out out' j em c s N E B R R' No Hs Hy Ho Hc Hl d'.
  assert (C1 : fst (run now (Create config (Some out)) d) = sset d out (MeshFile c (to_json em))) by (rewrite (C94_create now d config j em c (Some out) N E B R); reflexivity).
  assert (D : d' = fst (run now' (RebuildMesh out (Some out')) (session l (sset d out (MeshFile c (to_json em)))))).
  { unfold d', Cli.session. cbn [fold_left fst snd]. rewrite fold_left_app. cbn [fold_left fst snd]. rewrite C1. reflexivity. }
  set (d1 := session l (sset d out (MeshFile c (to_json em)))) in D.
  assert (E1 : sget d1 out = Some (MeshFile c (to_json em))) by (unfold d1; rewrite C94_only_outputs by exact Hl; apply sget_sset_same).
  pose proof (C75_rebuild_partial files files pad (at_now now) (at_now now') (at_glob now) (at_glob now') ft (at_construct now) (at_construct now') (at_read now) (at_read now') fuel j em c s (rest (to_json em)) B Hs Hy Ho Hc) as Rb.
  assert (Rn : run now' (RebuildMesh out (Some out')) d1 = (sset d1 out' (MeshFile c (to_json em)), Finished)).
  { cbn [Cli.run output_of or_default]. unfold open_arg. rewrite (proj2 (String.eqb_neq _ _) No), E1. cbn [json_of bind]. unfold rebuild_mesh in Rb.
    destruct (jget (mesh_file c (rest (to_json em))) "config") as [c1|]; [|discriminate]. cbn [bind] in *. destruct (jget c1 "mesh_info") as [c2|]; [|discriminate]. cbn [bind] in *.
    unfold built. rewrite Rb. cbn [bind fst snd]. unfold write. rewrite R'. reflexivity. }
  rewrite D, Rn. cbn [fst]. split; [apply sget_sset_same|]. destruct (string_dec out' out) as [->|Ne]; [apply sget_sset_same|]. rewrite sget_sset_other by congruence. exact E1.
Qed.

(** Built, and at any later time exported as JSON: the same file again, for cells that can
    be drawn and data without reserved names (C25). *)
Theorem C94_export_json_partial : forall now now' l d config out out' j em c format conf,
  config <> "-" -> sget d config = Some (Json j) -> built_at now j = Ok (em, c) -> refuses out = None -> refuses out' = None -> out <> "-" ->
  (forall c, In c (em_cells em) -> drawable (e_bounds c) /\ plain_data (e_data c)) -> accepted (c_region (em_config em)) ->
  PyStr.upper format = "JSON" -> (forall now c, In (now, c) l -> output_of c <> out) ->
  let d' := session ((now, Create config (Some out)) :: l ++ [(now', ExportMesh out format conf (Some out'))]) d in
  sget d' out' = Some (MeshFile c (to_json em)).
Proof.
  intros now now' l d config out out' j em c format conf N E B R R' No Hd Ha Hf Hl d'.
  assert (C1 : fst (run now (Create config (Some out)) d) = sset d out (MeshFile c (to_json em))) by (rewrite (C94_create now d config j em c (Some out) N E B R); reflexivity).
  assert (D : d' = fst (run now' (ExportMesh out format conf (Some out')) (session l (sset d out (MeshFile c (to_json em)))))).
  { unfold d', Cli.session. cbn [fold_left fst snd]. rewrite fold_left_app. cbn [fold_left fst snd]. rewrite C1. reflexivity. }
  set (d1 := session l (sset d out (MeshFile c (to_json em)))) in D.
  assert (E1 : sget d1 out = Some (MeshFile c (to_json em))) by (unfold d1; rewrite C94_only_outputs by exact Hl; apply sget_sset_same).
  destruct (C25_round_trip em Hd Ha) as (em' & L & _ & _ & _ & _ & _ & _ & T).
  rewrite D. cbn [Cli.run output_of or_default]. unfold open_arg. rewrite (proj2 (String.eqb_neq _ _) No), E1. cbn [mesh_of bind snd fst]. rewrite L. cbn [bind].
  unfold save. rewrite Hf. cbn [existsb String.eqb Ascii.eqb Bool.eqb orb]. rewrite R'. cbn [dump fst]. rewrite T. apply sget_sset_same.
Qed.

(** Merged: the file holds the meshes stacked on each other, and the configurations of all
    of them, for files as in C76. *)
Lemma merge_paths d : forall paths fs cs ms, Forall2 (fun path f => sget d path = Some (MeshFile (Out := Out) (fst f) (snd f))) paths (combine cs fs) ->
  List.length cs = List.length fs -> Forall2 (fun f m => load_from_json f = Ok m) fs ms -> forall c m m', appendable c -> merge_all m ms = Ok m' ->
  exists c', with_merged c cs c' /\ foldM (merge_path rest parse_mesh parse_other d) (c, m) paths = Ok (c', m').
Proof.
  induction paths as [|p paths IH]; intros fs cs ms F Le Ls c m m' A M.
  - destruct fs as [|f fs]; [|destruct cs; [discriminate|inversion F]]. destruct cs; [|discriminate]. inversion Ls; subst. cbn in M. injection M as <-. exists c. split; [constructor|reflexivity].
  - destruct fs as [|f fs]; [destruct cs; inversion F|]. destruct cs as [|c2 cs]; [discriminate|]. cbn [combine] in F. inversion F as [|? ? ? ? Hp F']; subst. inversion Ls as [|? m2 ? ms' L2 Ls']; subst.
    unfold merge_all in M. cbn [foldM] in M. destruct (merge_mesh m m2) as [(m1, m2')|] eqn:Em; [|discriminate]. cbn [bind fst] in M.
    destruct A as (o & -> & Ao). cbn [foldM]. unfold merge_path at 1. cbn [fst snd]. unfold open_read. rewrite Hp. cbn [bind fst snd mesh_of]. rewrite L2. cbn [bind]. rewrite Em. cbn [bind]. unfold merged_config. cbn [as_obj bind fst].
    assert (X : exists l, (sget o "merged" = Some (JArr l) \/ sget o "merged" = None /\ l = []) /\ match sget o "merged" with Some l => as_arr l | None => Ok [] end = Ok l).
    { destruct (sget o "merged") as [v|] eqn:Ev; [destruct (Ao v eq_refl) as (l & ->); exists l; split; [left|]; reflexivity|exists []; split; [right; split|]; reflexivity]. }
    destruct X as (l & Hl & El). rewrite El. cbn [bind].
    destruct (IH fs cs ms' F' ltac:(cbn in Le; lia) Ls' (JObj (sset o "merged" (JArr (l ++ [c2])%list))) m1 m') as (c' & Wc & Ec); [|exact M|].
    { eexists. split; [reflexivity|]. intros v Ev. rewrite sget_sset_same in Ev. injection Ev as <-. eauto. }
    exists c'. split; [econstructor; eassumption|exact Ec].
Qed.
Theorem C94_merge : forall now d mesh merge (dir : bool) paths c0 f0 cs fs m0 ms out,
  mesh <> "-" -> sget d mesh = Some (MeshFile c0 f0) ->
  (if dir then listdir (map fst d) merge = Ok paths else paths = [merge]) ->
  List.length cs = List.length fs -> Forall2 (fun path f => sget d path = Some (MeshFile (fst f) (snd f))) paths (combine cs fs) ->
  load_from_json f0 = Ok m0 -> Forall2 (fun f m => load_from_json f = Ok m) fs ms -> proper_file f0 -> Forall proper_file fs ->
  well_kept m0 -> Forall (fits m0) ms -> Forall (aligned_with m0) ms -> appendable c0 -> refuses out = None ->
  exists c f m, run now (Merge mesh merge dir (Some out)) d = (sset d out (MeshFile c f), Finished) /\
    with_merged c0 cs c /\ load_from_json f = Ok m /\ well_kept m /\ em_bounds m = em_bounds m0 /\ stacked m0 ms m.
Proof.
  intros now d mesh merge dir paths c0 f0 cs fs m0 ms out N E P Le F L0 Ls P0 Ps W Fi Al A R.
  destruct (C76_directory f0 fs m0 ms L0 Ls P0 Ps W Fi Al) as (f & m & Ec & Lf & Wk & Eb & _ & St).
  unfold merge_mesh_cli in Ec. rewrite L0 in Ec. cbn [bind] in Ec. rewrite (merge_files_all _ _ Ls) in Ec. destruct (merge_all m0 ms) as [m'|] eqn:Em; [|discriminate]. cbn [bind] in Ec. injection Ec as <-.
  destruct (merge_paths d paths fs cs ms F Le Ls c0 m0 m' A Em) as (c & Wc & Er).
  exists c, (to_json m'), m. split; [|auto]. cbn [Cli.run output_of or_default]. unfold open_arg, open_read at 1, name_of. rewrite (proj2 (String.eqb_neq _ _) N), E. cbn [bind mesh_of fst snd]. rewrite L0. cbn [bind].
  assert (Ep : (if dir then listdir (map fst d) merge else Ok [merge]) = Ok paths) by (destruct dir; [exact P|rewrite P; reflexivity]).
  rewrite Ep. cbn [bind]. rewrite Er. cbn [bind fst snd]. unfold write. rewrite R. reflexivity.
Qed.

(** Standard input is read like a file ... *)
Theorem C94_stdin : forall now d name, name <> "-" -> sget d name = Some (at_stdin now) ->
  (forall o, run now (Create "-" o) d = run now (Create name o) d) /\
  (forall o, run now (RebuildMesh "-" o) d = run now (RebuildMesh name o) d) /\
  (forall format conf o, run now (ExportMesh "-" format conf o) d = run now (ExportMesh name format conf o) d).
Proof.
  intros now d name N E. assert (O : open_arg now d name = open_arg now d "-") by (unfold open_arg; rewrite (proj2 (String.eqb_neq _ _) N), E; reflexivity).
  repeat split; intros; cbn [Cli.run]; rewrite O; reflexivity.
Qed.
(** ... but not by [merge_mesh], which opens the file called "<stdin>" (finding). *)
Theorem C94_merge_stdin_refuted : forall now d merge dir o, sget d "<stdin>" = None ->
  run now (Merge "-" merge dir o) d = (d, Raised FileNotFoundError).
Proof. intros now d merge dir o E. cbn [Cli.run]. unfold open_arg, name_of, open_read. cbn [String.eqb Ascii.eqb Bool.eqb]. rewrite E. reflexivity. Qed.

(** Exports do not write all or nothing: a GeoJSON export that fails has emptied its
    output, be it the mesh itself (finding, with C77_text).  So does one whose parameter
    file is missing. *)
Theorem C94_export_refuted : forall now d mesh c f em format conf e, mesh <> "-" -> sget d mesh = Some (MeshFile c f) -> load_from_json f = Ok em -> PyStr.upper format = "GEOJSON" ->
  refuses mesh = None -> to_geo em conf (sset d mesh Empty) = Err e ->
  run now (ExportMesh mesh format conf (Some mesh)) d = (sset d mesh Empty, Raised e) /\
  forall now' o, run now' (RebuildMesh mesh o) (sset d mesh Empty) = (sset d mesh Empty, Raised ValueError).
Proof.
  intros now d mesh c f em format conf e N E L Hf R G. split.
  - cbn [Cli.run output_of or_default]. unfold open_arg. rewrite (proj2 (String.eqb_neq _ _) N), E. cbn [mesh_of bind fst snd]. rewrite L. cbn [bind].
    rewrite Hf. cbn [existsb String.eqb Ascii.eqb Bool.eqb orb]. rewrite R. unfold save. rewrite Hf. cbn [String.eqb Ascii.eqb Bool.eqb]. rewrite G. reflexivity.
  - intros now' o. cbn [Cli.run]. unfold open_arg. rewrite (proj2 (String.eqb_neq _ _) N), sget_sset_same. reflexivity.
Qed.

(** Outputs are as named; left unnamed, no command writes over what another has made. *)
Theorem C94_defaults : forall config mesh mesh' format conf mesh'' merge dir,
  NoDup (map output_of [Create config None; RebuildMesh mesh None; ExportMesh mesh' format conf None; Merge mesh'' merge dir None]) /\
  forall out, map output_of [Create config (Some out); RebuildMesh mesh (Some out); ExportMesh mesh' format conf (Some out); Merge mesh'' merge dir (Some out)] = [out; out; out; out].
Proof.
  intros. split; [|reflexivity]. cbn [map output_of or_default]. unfold Export.default_output.
  assert (N : forall x, In x ["mesh_geo.json"; "mesh.tif"; "mesh.png"; "mesh.json"] -> NoDup ["create_mesh.output.json"; "rebuild_mesh.output.json"; x; "merged_mesh.output.json"]).
  { intros x I. cbn in I. destruct I as [<-|[<-|[<-|[<-|[]]]]]; repeat constructor; cbn; intuition discriminate. }
  apply N. cbv zeta. repeat match goal with |- context [if ?c then _ else _] => destruct c end; cbn; tauto.
Qed.
End CliProps.
Print Assumptions C94_only_outputs.
Print Assumptions C94_defaults.
Print Assumptions C94_all_or_nothing.
Print Assumptions C94_create.
Print Assumptions C94_rebuild_partial.
Print Assumptions C94_export_json_partial.
Print Assumptions C94_merge.
Print Assumptions C94_stdin.
Print Assumptions C94_merge_stdin_refuted.
Print Assumptions C94_export_refuted.

(** ** A case: built from a folder of which one file is read; exported onto a name that is
    taken; merged; and rebuilt on another day, with the folder gone *)
Definition cli_cfg : json := today_config 0 20 [("folder", JStr "data")].
Definition cli_day (now : Z) (glob : string -> list string) : moment unit := mkMoment now glob a_construct a_read Empty.
Definition cli_run : moment unit -> command -> disk unit -> disk unit * status :=
  Cli.run (fun _ => None) false (fun _ => false) 100 (fun _ => []) (fun _ => Err KeyError) (fun _ => Err ValueError)
    (fun path => if String.eqb path "etc/mesh.json" then Some OSError else None) (fun paths dir => Ok (filter (fun p => String.eqb (String.substring 0 (String.length dir) p) dir) paths))
    (fun _ _ _ => Err KeyError) (fun _ _ _ => (Untouched, Ok tt)) (fun _ _ _ => (Untouched, Ok tt)).
Definition cli_disk : disk unit := [("config.json", Json cli_cfg); ("lx.json", MeshFile (JObj [("a", JInt 1)]) (to_json lx));
  ("parts/corner.json", MeshFile (JObj [("a", JInt 2)]) (to_json corner)); ("parts/oy.json", MeshFile (JObj [("a", JInt 3)]) (to_json oy))].
Definition cells_in (d : disk unit) (path : string) : option nat := match sget d path with Some (MeshFile _ m) => Some (List.length (j_cells m)) | _ => None end.
Definition mesh_in (d : disk unit) (path : string) : option mesh_json := match sget d path with Some (MeshFile _ m) => Some m | _ => None end.
Definition config_in (d : disk unit) (path : string) : option json := match sget d path with Some (MeshFile c _) => Some c | _ => None end.
Example C94_case :
  let at1 := cli_day day1 data_dir in let at2 := cli_day day2 (fun _ => []) in
  let d1 := fst (cli_run at1 (Create "config.json" None) cli_disk) in
  let d2 := fst (cli_run at2 (ExportMesh "create_mesh.output.json" "json" None (Some "copy.json")) d1) in
  let d3 := fst (cli_run at2 (Merge "lx.json" "parts/" true None) d2) in
  let d4 := fst (cli_run at2 (RebuildMesh "create_mesh.output.json" (Some "config.json")) d3) in
  cells_in d4 "create_mesh.output.json" = Some 5%nat /\
  sget d4 "copy.json" = sget d4 "create_mesh.output.json" /\ sget d4 "config.json" = sget d4 "create_mesh.output.json" /\
  config_in d4 "merged_mesh.output.json" = Some (JObj [("a", JInt 1); ("merged", JArr [JObj [("a", JInt 2)]; JObj [("a", JInt 3)]])]) /\
  mesh_in d4 "merged_mesh.output.json" <> mesh_in d4 "lx.json" /\
  cli_run at1 (Create "no.json" None) d4 = (d4, Usage) /\ cli_run at1 (Create "config.json" (Some "etc/mesh.json")) cli_disk = (cli_disk, Raised OSError) /\
  cli_run at1 (Merge "lx.json" "no.json" false None) d4 = (d4, Raised FileNotFoundError) /\
  sget (fst (cli_run at1 (ExportMesh "copy.json" "geojson" None (Some "copy.json")) d4)) "copy.json" = Some Empty.
Proof.
  cbv zeta. split; [vm_compute; reflexivity|]. split; [vm_compute; reflexivity|]. split; [vm_compute; reflexivity|]. split; [vm_compute; reflexivity|].
  split; [vm_compute; discriminate|]. split; [vm_compute; reflexivity|]. split; [vm_compute; reflexivity|]. split; [vm_compute; reflexivity|]. vm_compute. reflexivity.
Qed.
(** The hypotheses of the theorems in the case. *)
Example C94_case_hypotheses :
  (exists s em c, says cli_cfg s /\ year_ok (today_of day1) /\ Forall one_way (s_loaders s) /\
     build (fun _ => None) false day1 data_dir (fun _ => false) a_construct a_read 100 cli_cfg = Ok (em, c) /\
     (forall c, In c (em_cells em) -> drawable (e_bounds c) /\ plain_data (e_data c)) /\ EnvSpec.accepted (c_region (em_config em))) /\
  PyStr.upper "json" = "JSON" /\ appendable (JObj [("a", JInt 1)]) /\
  load_from_json (to_json lx) = Ok lx /\ proper_file (to_json lx) /\ well_kept lx /\ Forall (fits lx) [corner; oy] /\ Forall (aligned_with lx) [corner; oy].
Proof.
  split.
  - destruct C75_case as (A & B & C & _ & em & r & d & p & E & _). do 3 eexists. split; [exact A|]. split; [exact B|]. split; [exact C|]. split; [exact E|].
    assert (E' : fst (build_at cli_cfg) = em) by (unfold build_at, cli_cfg; rewrite E; reflexivity). rewrite <- E'. clear E E'. split.
    + intros cb Hc. vm_compute in Hc.
      repeat (destruct Hc as [<-|Hc]; [split; [unfold drawable; cbn [e_bounds lat_min lat_max long_min long_max]; repeat split; try (left; reflexivity); vm_compute; first [reflexivity|discriminate]|
        cbn [e_data]; split; [cbn; repeat constructor; cbn; intuition discriminate|cbn; intros n H X; intuition (subst; discriminate)]]|]); contradiction.
    + unfold EnvSpec.accepted. split; [vm_compute; repeat split; discriminate|]. right. do 2 eexists. split; [vm_compute; reflexivity|discriminate].
  - destruct C76_case as (L & _ & P & _ & W & F & Al & _). split; [reflexivity|]. split; [eexists; split; [reflexivity|discriminate]|].
    split; [exact L|]. split; [exact P|]. split; [exact W|]. inversion F; subst. inversion H2; subst. inversion Al; subst. inversion H6; subst. auto.
Qed.
