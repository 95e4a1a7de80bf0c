(** Property theorems C80: the test automation. *)
From Verif Require Import Base Cell PyStr Automate AutomateSpec StrLib AutomateProofs.
Open Scope string_scope.

Lemma automated {commit} resolve (files_of : commit -> tree) merge_base work listed pytest repo a b r u told (changed : string -> Prop) :
  lists_sets listed -> (forall f, In f (get_diff_filenames resolve files_of merge_base work a b) <-> changed f) ->
  (forall t, output (pytest t) (told t) /\ forall o, In o (told t) -> good_outcome o) ->
  exists rt ut ro uo, runs REGRESSION_TESTS_BY_FILE changed (r = true) rt /\ runs UNIT_TESTS_BY_FILE changed (u = true) ut /\
    saying told (repo ++ "/tests/regression_tests") rt ro /\ saying told (repo ++ "/tests/unit_tests") ut uo /\
    automate resolve files_of merge_base work listed pytest repo a b r u =
      Ok (having "PASSED" (ro ++ uo), having "FAILED" (ro ++ uo), having "ERROR" (ro ++ uo)).
Proof.
  intros L D O. set (files := get_diff_filenames resolve files_of merge_base work a b) in *.
  assert (W : forall table (on : bool), runs table changed (on = true) (if on then tests_to_run listed files table else [])).
  { intros table on. destruct (run_exactly listed files table L) as (N & H). destruct on.
    - split; [exact N|]. intros t. rewrite H. unfold registered. split.
      + intros (p & f & ts & I & R). split; [reflexivity|]. exists p, f, ts. rewrite <- D. auto.
      + intros (_ & p & f & ts & I & R). exists p, f, ts. rewrite D. auto.
    - split; [constructor|]. intros t. split; [intros []|intros (E & _); discriminate]. }
  exists (if r then tests_to_run listed files REGRESSION_TESTS_BY_FILE else []), (if u then tests_to_run listed files UNIT_TESTS_BY_FILE else []).
  eexists. eexists. split; [apply W|]. split; [apply W|]. split; [reflexivity|]. split; [reflexivity|].
  assert (P1 : path_join (path_join repo "tests") "regression_tests" = repo ++ "/tests/regression_tests") by (unfold path_join; rewrite app_assoc_s; reflexivity).
  assert (P2 : path_join (path_join repo "tests") "unit_tests" = repo ++ "/tests/unit_tests") by (unfold path_join; rewrite app_assoc_s; reflexivity).
  unfold automate. fold files. rewrite P1, P2.
  change (fun t => told (?d ++ "/" ++ t)) with (fun t => told (path_join d t)).
  assert (R : (if r then run_tests listed pytest files (repo ++ "/tests/regression_tests") REGRESSION_TESTS_BY_FILE no_results else Ok no_results) =
    Ok (by_status (all_outcomes told (repo ++ "/tests/regression_tests") (if r then tests_to_run listed files REGRESSION_TESTS_BY_FILE else [])))).
  { destruct r; [|reflexivity]. rewrite (run_results listed pytest told) by (intros; apply O). reflexivity. }
  rewrite R. cbn [bind]. destruct u.
  - rewrite (run_results listed pytest told) by (intros; apply O). rewrite <- by_status_app. reflexivity.
  - cbn [map List.concat]. rewrite app_nil_r. reflexivity.
Qed.
Lemma flags {A} (f : bool -> bool -> A) r u : (let (reg, unit) := if xorb r u then (r, u) else (true, true) in f reg unit) =
  f (r || negb u) (u || negb r).
Proof. destruct r, u; reflexivity. Qed.

(** C80.  With one branch: the tests registered for the files of the working tree that
    differ from it are run, each once, and the reports are those of pytest, in order. *)
Theorem C80_one_branch : forall (commit : Type) resolve (files_of : commit -> tree) merge_base work listed pytest repo branch r u told,
  lists_sets listed -> good_tree work -> good_tree (files_of (resolve branch)) ->
  (forall t, output (pytest t) (told t) /\ forall o, In o (told t) -> good_outcome o) ->
  exists rt ut ro uo,
    runs REGRESSION_TESTS_BY_FILE (differs (files_of (resolve branch)) work) (chosen r u) rt /\
    runs UNIT_TESTS_BY_FILE (differs (files_of (resolve branch)) work) (chosen u r) ut /\
    saying told (repo ++ "/tests/regression_tests") rt ro /\ saying told (repo ++ "/tests/unit_tests") ut uo /\
    meshiphi_test resolve files_of merge_base work listed pytest repo branch None r u =
      Ok (having "PASSED" (ro ++ uo), having "FAILED" (ro ++ uo), having "ERROR" (ro ++ uo)).
Proof.
  intros commit resolve files_of merge_base work listed pytest repo branch r u told L G1 G2 O.
  destruct (automated resolve files_of merge_base work listed pytest repo None (Some branch) (r || negb u) (u || negb r) told
    (differs (files_of (resolve branch)) work) L (fun f => diff_listed _ _ f G2 G1) O) as (rt & ut & ro & uo & R & U & S1 & S2 & E).
  exists rt, ut, ro, uo. split; [|split; [|split; [exact S1|split; [exact S2|]]]].
  - destruct R as (N & H). split; [exact N|]. intros t. rewrite H. unfold chosen. destruct r, u; cbn; intuition congruence.
  - destruct U as (N & H). split; [exact N|]. intros t. rewrite H. unfold chosen. destruct r, u; cbn; intuition congruence.
  - unfold meshiphi_test. rewrite <- E. apply flags.
Qed.
Print Assumptions C80_one_branch.

(** C80.  With two branches the same holds of the files that differ between the merge base
    and the second branch. *)
Theorem C80_two_branches : forall (commit : Type) resolve (files_of : commit -> tree) merge_base work listed pytest repo a b r u told,
  lists_sets listed -> a <> "" -> good_tree (files_of (merge_base (resolve a) (resolve b))) -> good_tree (files_of (resolve b)) ->
  (forall t, output (pytest t) (told t) /\ forall o, In o (told t) -> good_outcome o) ->
  exists rt ut ro uo,
    runs REGRESSION_TESTS_BY_FILE (differs (files_of (merge_base (resolve a) (resolve b))) (files_of (resolve b))) (chosen r u) rt /\
    runs UNIT_TESTS_BY_FILE (differs (files_of (merge_base (resolve a) (resolve b))) (files_of (resolve b))) (chosen u r) ut /\
    saying told (repo ++ "/tests/regression_tests") rt ro /\ saying told (repo ++ "/tests/unit_tests") ut uo /\
    meshiphi_test resolve files_of merge_base work listed pytest repo a (Some b) r u =
      Ok (having "PASSED" (ro ++ uo), having "FAILED" (ro ++ uo), having "ERROR" (ro ++ uo)).
Proof.
  intros commit resolve files_of merge_base work listed pytest repo a b r u told L Na G1 G2 O.
  assert (D : forall f, In f (get_diff_filenames resolve files_of merge_base work (Some a) (Some b)) <->
    differs (files_of (merge_base (resolve a) (resolve b))) (files_of (resolve b)) f).
  { intros f. unfold get_diff_filenames. destruct a as [|x a]; [contradiction|]. apply diff_listed; assumption. }
  destruct (automated resolve files_of merge_base work listed pytest repo (Some a) (Some b) (r || negb u) (u || negb r) told _ L D O) as (rt & ut & ro & uo & R & U & S1 & S2 & E).
  exists rt, ut, ro, uo. split; [|split; [|split; [exact S1|split; [exact S2|]]]].
  - destruct R as (N & H). split; [exact N|]. intros t. rewrite H. unfold chosen. destruct r, u; cbn; intuition congruence.
  - destruct U as (N & H). split; [exact N|]. intros t. rewrite H. unfold chosen. destruct r, u; cbn; intuition congruence.
  - unfold meshiphi_test. rewrite <- E. apply flags.
Qed.
Print Assumptions C80_two_branches.

(** So whatever the tested branch changes on top of the reference branch goes untested: if
    the reference branch has not moved on, no test is run. *)
Theorem C80_tested_branch_refuted : exists (parent : nat -> nat -> Prop) (files_of : nat -> tree) merge_base f test,
  (forall a b, (a <= 1)%nat -> (b <= 1)%nat -> is_merge_base parent (merge_base a b) a b) /\ (forall c, good_tree (files_of c)) /\
  differs (files_of 1%nat) (files_of 0%nat) f /\ registered UNIT_TESTS_BY_FILE [f] test /\
  forall listed work pytest repo r u, lists_sets listed ->
    meshiphi_test (fun b => if String.eqb b "feature" then 1%nat else 0%nat) files_of merge_base work listed pytest repo "feature" (Some "main") r u = Ok no_results.
Proof.
  exists (fun a b => a = 0%nat /\ b = 1%nat), (fun c => [("meshiphi/mesh_generation/boundary.py", if Nat.eqb c 0 then "old" else "new")]), Nat.min,
    "meshiphi/mesh_generation/boundary.py", "test_boundary.py".
  split; [|split; [|split; [discriminate|split]]].
  - intros a b La Lb. assert (A0 : forall c, (c <= 1)%nat -> ancestor (fun a b => a = 0%nat /\ b = 1%nat) 0%nat c).
    { intros c L. destruct c as [|[|c]]; [constructor|eapply anc_step; [constructor|auto]|lia]. }
    assert (S0 : forall c, ancestor (fun a b => a = 0%nat /\ b = 1%nat) c c) by (intros; constructor).
    destruct a as [|[|a]], b as [|[|b]]; try lia; cbn [Nat.min]; repeat split; auto.
  - intros c f [<-|[]]. split; [discriminate|]. apply not_within. reflexivity.
  - exists "meshiphi/mesh_generation/boundary.py", "boundary.py", ["test_boundary.py"]. split; [left; reflexivity|].
    split; [apply named_basename; reflexivity|]. split; [do 5 right; left; reflexivity|left; reflexivity].
  - intros listed work pytest repo r u L. assert (E : listed [] = []).
    { destruct (listed []) as [|x l] eqn:E; [reflexivity|]. destruct (L []) as (_ & H). rewrite E in H. destruct (proj1 (H x) (or_introl eq_refl)). }
    unfold meshiphi_test. rewrite flags. unfold automate, run_tests, tests_to_run.
    match goal with |- context [get_diff_filenames ?a ?b ?c ?d ?e ?f] => assert (D : get_diff_filenames a b c d e f = []) by (vm_compute; reflexivity); rewrite D end.
    cbn [map List.concat]. rewrite E. destruct (r || negb u), (u || negb r); reflexivity.
Qed.
Print Assumptions C80_tested_branch_refuted.

(** C80.  The statistics count, for each test file, its passed and all its tests. *)
Theorem C80_statistics : forall listed p f e, lists_sets listed ->
  let all := (p ++ f ++ e)%list in
  NoDup (map fst (summarise listed (p, f, e))) /\
  forall file passed total, In (file, (passed, total)) (summarise listed (p, f, e)) <->
    (exists t, In t all /\ ti_file t = file) /\
    total = List.length (filter (fun t => String.eqb (ti_file t) file) all) /\
    passed = List.length (filter (fun t => String.eqb (ti_status t) "PASSED") (filter (fun t => String.eqb (ti_file t) file) all)).
Proof.
  intros listed p f e L all. unfold summarise. cbn [fst snd]. fold all. destruct (L (map ti_file all)) as (N & H). split.
  - rewrite map_map. cbn [fst]. rewrite map_id. exact N.
  - intros file passed total. rewrite in_map_iff. split.
    + intros (x & E & I). injection E as <- <- <-. apply H, in_map_iff in I. destruct I as (t & Et & I). split; [eauto|].
      rewrite map_length, count_map. auto.
    + intros ((t & I & Et) & -> & ->). exists file. rewrite map_length, count_map. split; [reflexivity|]. apply H, in_map_iff. eauto.
Qed.
Print Assumptions C80_statistics.

(** C80.  A test function without parameters stops the whole run: IndexError. *)
Theorem C80_function_refuted : forall path test line before title after, word path -> word test -> line = "PASSED " ++ path ++ "::" ++ test ->
  (forall l, In l (before ++ title :: line :: after)%list -> ~ within newline l) ->
  (forall l, In l before -> ~ within "short test summary info" l) -> within "short test summary info" title -> ~ within "::" title ->
  parse_pytest_stdout (join newline (before ++ title :: line :: after)) = Err IndexError.
Proof.
  intros path test line before title after P T El N B T1 T2. unfold parse_pytest_stdout, newline.
  rewrite split_join; [|destruct before; discriminate|intros l I; apply free_within, N, I].
  rewrite from_summary_skip by exact B. cbn [from_summary]. rewrite (proj2 (cut_within _ title) T1). cbn [bind foldM].
  rewrite (proj2 (not_within _ title) T2). cbn [bind]. rewrite El, (proj2 (cut_within "::" _)) by (exists ("PASSED " ++ path), test; rewrite app_assoc_s; reflexivity).
  unfold parse_line. fold (clean ("PASSED " ++ path ++ "::" ++ test)).
  change ("PASSED " ++ path ++ "::" ++ test) with ("PASSED" ++ " " ++ path ++ "::" ++ test).
  destruct (word_free _ P) as (_ & _ & _ & P1 & P2). destruct (word_free _ T) as (_ & _ & _ & Q1 & Q2).
  rewrite clean_word, clean_space, clean_word, clean_colons by (assumption || (apply status_word; cbn; auto)).
  pose proof (clean_word test "" T) as X. rewrite app_nil_s, clean_nil, app_nil_s in X. rewrite X.
  rewrite words_word, words_word, words_last; try assumption; [reflexivity|discriminate|]. intros c I. cbn in I. repeat (destruct I as [<-|I]; [reflexivity|]). destruct I.
Qed.
Print Assumptions C80_function_refuted.
(** C80.  A test file that cannot be imported is reported neither as failed nor as error. *)
Theorem C80_collection_refuted : exists stdout, within "ERROR tests/unit_tests/test_boundary.py - ModuleNotFoundError" stdout /\
  within "short test summary info" stdout /\ within "1 error in 0.12s" stdout /\ parse_pytest_stdout stdout = Ok no_results.
Proof.
  set (l1 := "=== short test summary info ==="). set (l2 := "ERROR tests/unit_tests/test_boundary.py - ModuleNotFoundError"). set (l3 := "=== 1 error in 0.12s ===").
  exists (join newline [l1; l2; l3]). split; [|split; [|split; [|vm_compute; reflexivity]]]; apply cut_within; vm_compute; reflexivity.
Qed.
Print Assumptions C80_collection_refuted.
(** C80.  Without a summary, as when pytest cannot start: IndexError; an expected failure:
    ValueError. *)
Theorem C80_no_summary : forall stdout, ~ within "short test summary info" stdout -> parse_pytest_stdout stdout = Err IndexError.
Proof.
  intros stdout N. unfold parse_pytest_stdout.
  assert (H : forall l, In l (split newline stdout) -> within l stdout).
  { assert (G : forall n s, (String.length s <= n)%nat -> forall l, In l (split newline s) -> within l s).
    { induction n as [|n IH]; intros s Ls l I.
      - destruct s; [|cbn in Ls; lia]. destruct I as [<-|[]]. exists "", "". reflexivity.
      - unfold newline in I. rewrite split_cut in I. destruct (cut _ s) as [[a b]|] eqn:C.
        + pose proof (cut_length _ _ _ _ _ C) as Lb. apply cut_some in C. destruct I as [<-|I].
          * exists "", (String (ascii_of_nat 10) "" ++ b). exact C.
          * destruct (IH b ltac:(lia) l I) as (x & y & E). exists (a ++ String (ascii_of_nat 10) "" ++ x), y. rewrite C, E, !app_assoc_s. reflexivity.
        + destruct I as [<-|[]]. exists "", "". rewrite app_nil_s. reflexivity. }
    exact (G _ stdout (le_n _)). }
  rewrite <- (app_nil_r (split newline stdout)), from_summary_skip; [reflexivity|].
  intros l I (a & b & E). apply N. destruct (H l I) as (x & y & ->). exists (x ++ a), (b ++ y). rewrite E, !app_assoc_s. reflexivity.
Qed.
Print Assumptions C80_no_summary.
Theorem C80_expected_failure_refuted : exists stdout, within "XFAIL tests/unit_tests/test_boundary.py::TestBoundary::test_split" stdout /\ parse_pytest_stdout stdout = Err ValueError.
Proof.
  set (l1 := "=== short test summary info ==="). set (l2 := "XFAIL tests/unit_tests/test_boundary.py::TestBoundary::test_split").
  exists (join newline [l1; l2; "=== 1 xfailed in 0.12s ==="]). split; [apply cut_within; vm_compute; reflexivity|vm_compute; reflexivity].
Qed.
Print Assumptions C80_expected_failure_refuted.

(** C80.  These are the tests of a file, and all others have none; the tests of the
    validator are run for no change. *)
Theorem C80_tables : forall path f test, named path f ->
  (registered REGRESSION_TESTS_BY_FILE [path] test <-> test = "test_mesh.py" /\
     In f ["mesh_builder.py"; "mesh.py"; "neighbour_graph.py"; "metadata.py"; "aggregated_cellbox.py"; "boundary.py"; "cellbox.py"; "direction.py"; "environment_mesh.py"]) /\
  (registered UNIT_TESTS_BY_FILE [path] test <->
     In (f, test) [("mesh_builder.py", "test_mesh_builder.py"); ("neighbour_graph.py", "test_neighbour_graph.py"); ("aggregated_cellbox.py", "test_aggregated_cellbox.py");
       ("boundary.py", "test_boundary.py"); ("cellbox.py", "test_cellbox.py"); ("environment_mesh.py", "test_env_mesh.py"); ("cli.py", "test_cli.py")]).
Proof.
  intros path f test Nm. assert (Nf := proj1 (named_basename path f) Nm).
  assert (R : forall table, registered table [path] test <-> exists ts, In (f, ts) table /\ In test ts).
  { intros table. split.
    - intros (p & g & ts & [<-|[]] & Nm' & I & J). apply named_basename in Nm'. assert (g = f) by congruence. subst g. rewrite H in I. exists ts. split; assumption.
    - intros (ts & I & J). exists path, f, ts. split; [left; reflexivity|]. auto. }
  split; rewrite R; split.
  - intros (ts & I & J). cbn in I. repeat (destruct I as [[= <- <-]|I]; [destruct J as [<-|[]]; cbn; tauto|]). destruct I.
  - intros (-> & I). exists ["test_mesh.py"]. split; [|left; reflexivity]. cbn in I. repeat (destruct I as [<-|I]; [cbn; tauto|]). destruct I.
  - intros (ts & I & J). cbn in I. repeat (destruct I as [[= <- <-]|I]; [cbn in J; repeat (destruct J as [<-|J]; [cbn; tauto|]); destruct J|]). destruct I.
  - intros I. exists [test]. split; [|left; reflexivity]. cbn in I. repeat (destruct I as [[= <- <-]|I]; [cbn; tauto|]). destruct I.
Qed.
Print Assumptions C80_tables.
Theorem C80_validator_refuted : forall files, ~ registered REGRESSION_TESTS_BY_FILE files "test_mesh_validator.py" /\ ~ registered UNIT_TESTS_BY_FILE files "test_mesh_validator.py".
Proof.
  intros files. split; intros (p & f & ts & _ & _ & I & J); cbn in I; repeat (destruct I as [[= <- <-]|I]; [cbn in J; intuition discriminate|]); destruct I.
Qed.
Print Assumptions C80_validator_refuted.

(** A run for a changed boundary.py and README.md: two tests, three results. *)
Example C80_case : let nl := newline in
  let told t := if String.eqb t "/r/tests/regression_tests/test_mesh.py"
                then [parametrised "PASSED" "test_mesh.py" "test_cells" "./meshes/a.json" ""; parametrised "FAILED" "test_mesh.py" "test_cells" "./meshes/b.json" " - AssertionError: a::b"]
                else [method "PASSED" "test_boundary.py" "TestBoundary" "test_split" ""] in
  let pytest t := join nl ("collected 3 items" :: "=== short test summary info ===" :: map line_of (told t) ++ ["=== 2 passed in 1.00s ==="])%list in
  let main := [("meshiphi/mesh_generation/boundary.py", "x"); ("README.md", "y"); ("meshiphi/utils.py", "z")] in
  let work := [("meshiphi/mesh_generation/boundary.py", "xx"); ("meshiphi/utils.py", "z"); ("NEW.md", "w")] in
  (forall t, output (pytest t) (told t) /\ forall o, In o (told t) -> good_outcome o) /\ good_tree main /\ good_tree work /\
  meshiphi_test (fun _ => tt) (fun _ => main) (fun a _ => a) work (nodup string_dec) pytest "/r" "main" None false false =
    Ok ([mkTI "test_mesh.py" "test_cells" "./meshes/a.json" "PASSED"; mkTI "test_boundary.py" "TestBoundary" "test_split" "PASSED"],
        [mkTI "test_mesh.py" "test_cells" "./meshes/b.json" "FAILED"], []) /\
  lists_sets (nodup string_dec).
Proof.
  assert (W : forall w, forallb (fun c => negb (is_space c) && negb (Ascii.eqb c ":") && negb (Ascii.eqb c "[") && negb (Ascii.eqb c "]")) (list_ascii_of_string w) = true -> w <> "" -> word w).
  { intros w F N. split; [exact N|]. rewrite forallb_forall in F. intros c I. specialize (F c I). rewrite !andb_true_iff, !negb_true_iff in F. destruct F as (((A & B) & C) & D).
    apply Ascii.eqb_neq in B, C, D. auto. }
  cbv zeta. split; [|split; [|split; [|split]]].
  - intros t. match goal with |- context [String.eqb t ?x] => destruct (String.eqb t x) end.
    + split.
      * eexists ["collected 3 items"], "=== short test summary info ===", ["=== 2 passed in 1.00s ==="]. split; [reflexivity|].
        split; [intros l [<-|[]]; split; apply not_within; vm_compute; reflexivity|]. split; [apply not_within; vm_compute; reflexivity|].
        split; [apply cut_within; vm_compute; reflexivity|]. split; [apply not_within; vm_compute; reflexivity|]. intros l [<-|[]]; split; apply not_within; vm_compute; reflexivity.
      * intros o [<-|[<-|[]]]; (split; [|split; [cbn; auto|apply not_within; vm_compute; reflexivity]]); cbn [good_outcome];
          (split; [apply W; [vm_compute; reflexivity|discriminate]|]); (split; [apply W; [vm_compute; reflexivity|discriminate]|]);
          (split; [apply not_within; vm_compute; reflexivity|apply W; [vm_compute; reflexivity|discriminate]]).
    + split.
      * eexists ["collected 3 items"], "=== short test summary info ===", ["=== 2 passed in 1.00s ==="]. split; [reflexivity|].
        split; [intros l [<-|[]]; split; apply not_within; vm_compute; reflexivity|]. split; [apply not_within; vm_compute; reflexivity|].
        split; [apply cut_within; vm_compute; reflexivity|]. split; [apply not_within; vm_compute; reflexivity|]. intros l [<-|[]]; split; apply not_within; vm_compute; reflexivity.
      * intros o [<-|[]]. split; [|split; [cbn; auto|apply not_within; vm_compute; reflexivity]]. cbn. split; [apply W; [vm_compute; reflexivity|discriminate]|]. split; [apply W; [vm_compute; reflexivity|discriminate]|].
        split; [apply not_within; vm_compute; reflexivity|]. split; [apply W; [vm_compute; reflexivity|discriminate]|left; reflexivity].
  - intros f I. cbn in I. repeat (destruct I as [<-|I]; [split; [discriminate|apply not_within; vm_compute; reflexivity]|]). destruct I.
  - intros f I. cbn in I. repeat (destruct I as [<-|I]; [split; [discriminate|apply not_within; vm_compute; reflexivity]|]). destruct I.
  - vm_compute. reflexivity.
  - intros l. split; [apply NoDup_nodup|]. intros x. apply nodup_In.
Qed.
