(** Property theorem C85: the meshes kept of a test run. *)
From Coq Require Import String.
From Verif Require Import Base Geo Cell PyStr Dates Config Compare CompareSpec CompareProofs PropsCompare Automate AutoSave AutoSaveSpec AutoSaveProofs.
Open Scope string_scope.
Open Scope Z_scope.

(** C85.  Of every file b.json in the directory (its old and new mesh written by to_json),
    exactly those are copied to the output folder, with their plots, whose new mesh differs
    from the old one by one of the four comparisons; the others are removed, with their
    plots; no other file changes.  In whatever order the directory is listed. *)
Theorem C85_saved_partial : forall rs passes fails errors listing tmp out, NoDup listing ->
  (forall f, In f listing <-> sget tmp f <> None) ->
  (forall b, stem b -> sget tmp (b ++ ".json") <> None -> exists o n, sget tmp (b ++ ".json") = Some (Pair o n) /\ mesh_ok o /\ mesh_ok n /\ with_ids n) ->
  exists tmp' out', save_tests rs passes fails errors listing tmp out = Ok (tmp', out') /\
    (forall b o n, stem b -> sget tmp (b ++ ".json") = Some (Pair o n) ->
       (reported o n /\ kept b tmp out tmp' out') \/ (~ reported o n /\ dropped b out tmp' out')) /\
    (forall f, (forall b, stem b -> f = b ++ ".json" \/ f = b ++ ".svg" -> sget tmp (b ++ ".json") = None) ->
       sget tmp' f = sget tmp f /\ sget out' f = sget out f).
Proof.
  intros rs ps fs es listing tmp out ND L G. destruct (saved listing tmp out ND) as (t & o & E & K & U).
  { intros b S I. apply G; [exact S|apply L, I]. }
  exists t, o. split; [destruct rs as [[a b] c]; exact E|]. split.
  - intros b o1 n S E'. apply K; [exact S| |exact E']. apply L. rewrite E'. discriminate.
  - intros f Hf. apply U. intros b S I. apply L in I. split; intros X; apply I, Hf; auto.
Qed.
Print Assumptions C85_saved_partial.
Definition sx_tmp : dir := [("a.json", Pair cx_m1 cx_m2); ("a.svg", Other "plot"); ("b.json", Pair cx_m3 cx_m3); ("b.svg", Other "plot b"); (".json", Other "x"); ("run.log", Other "y")].
Example C85_case : NoDup (map fst sx_tmp) /\ (forall f, In f (map fst sx_tmp) <-> sget sx_tmp f <> None) /\
  (forall b, stem b -> sget sx_tmp (b ++ ".json") <> None -> exists o n, sget sx_tmp (b ++ ".json") = Some (Pair o n) /\ mesh_ok o /\ mesh_ok n /\ with_ids n) /\
  save_tests no_results false true true (map fst sx_tmp) sx_tmp [("old.json", Other "z")] =
    Ok ([("a.json", Pair cx_m1 cx_m2); ("a.svg", Other "plot"); (".json", Other "x"); ("run.log", Other "y")],
        [("old.json", Other "z"); ("a.json", Pair cx_m1 cx_m2); ("a.svg", Other "plot")]).
Proof.
  split; [repeat constructor; cbn; intuition discriminate|]. split; [|split; [|vm_compute; reflexivity]].
  - intros f. cbn [map fst sx_tmp In]. unfold sx_tmp. cbn [sget].
    repeat match goal with |- context [String.eqb f ?x] => destruct (String.eqb_spec f x) as [->|?]; [split; [discriminate|intros; tauto]|] end.
    split; [intuition congruence|intros H; contradiction].
  - intros b S. unfold sx_tmp. cbn [sget].
    destruct (String.eqb_spec (b ++ ".json") "a.json") as [E|_].
    { intros _. do 2 eexists. split; [reflexivity|]. split; [exact cx_ok1|]. split; [exact cx_ok2|]. intros c [<-|[<-|[]]]; cbn; tauto. }
    destruct (String.eqb_spec (b ++ ".json") "a.svg") as [E|_]; [exfalso; exact (svg_json "a" b (eq_sym E))|].
    destruct (String.eqb_spec (b ++ ".json") "b.json") as [E|_].
    { intros _. do 2 eexists. split; [reflexivity|]. split; [exact cx_ok3|]. split; [exact cx_ok3|]. intros c [<-|[]]; cbn; tauto. }
    destruct (String.eqb_spec (b ++ ".json") "b.svg") as [E|_]; [exfalso; exact (svg_json "b" b (eq_sym E))|].
    destruct (String.eqb_spec (b ++ ".json") ".json") as [E|_].
    { exfalso. apply (app_inj_r ".json" b "") in E. subst b. destruct S as (l & c & r & X & _). destruct l; discriminate X. }
    destruct (String.eqb_spec (b ++ ".json") "run.log") as [E|_]; [|intros H; contradiction].
    exfalso. apply (f_equal last_dot) in E. rewrite last_dot_ext in E. discriminate E.
Qed.
(** C85.  Finding: which tests were asked for (passed, failed or in error) makes no difference. *)
Theorem C85_flags_refuted : forall rs rs' p f e p' f' e' listing tmp out,
  save_tests rs p f e listing tmp out = save_tests rs' p' f' e' listing tmp out.
Proof. intros [[? ?] ?] [[? ?] ?] *. reflexivity. Qed.
Print Assumptions C85_flags_refuted.
Definition cx_m6 : mesh_file := mkFile [cx_cell "A" "0" (JInt 12345); cx_cell "B" "1" (JInt 1)] (cx_graph [1]).
(** C85.  Finding: a new mesh that has lost a cell is taken for the same; its file is removed, even if
    the test failed and failures were asked for. *)
Theorem C85_refuted : exists o n g tmp, mesh_ok o /\ mesh_ok n /\ with_ids n /\ has_cell o g /\ ~ has_cell n g /\
  sget tmp "a.json" = Some (Pair o n) /\
  save_tests ([], [mkTI "test_mesh.py" "test_cells" "./meshes/a.json" "FAILED"], []) false true true ["a.json"] tmp [] = Ok ([], []).
Proof.
  exists cx_m6, cx_m3, "B", [("a.json", Pair cx_m6 cx_m3)].
  split; [cx_ok|]. split; [exact cx_ok3|]. split; [intros c [<-|[]]; cbn; tauto|]. split; [eexists; split; [right; left; reflexivity|reflexivity]|].
  split; [intros (c & [<-|[]] & E); discriminate E|]. split; [reflexivity|]. vm_compute. reflexivity.
Qed.
Print Assumptions C85_refuted.
