(** Property theorems C41, C42 and C53: the dataloader factory, default
    parameters, and the fill type.  Statements only. *)
From Verif Require Import Base Geo Cell PyStr Dates Config ConfigSpec Params ParamSpec ParamProofs.
Open Scope string_scope.
Open Scope Z_scope.

(** C41.  The letter case of the name does not matter, whatever the parameters. *)
Theorem C41_letter_case : forall glob n n' p min_dp, same_name n n' ->
  get_dataloader glob n p min_dp = get_dataloader glob n' p min_dp.
Proof. exact factory_case. Qed.
Print Assumptions C41_letter_case.
Example C41_letter_case_case : same_name "AMSR" "amsr" /\ lower "AMSR" = "amsr".
Proof.
  split; [|reflexivity]. cbn. repeat split; right;
    [exists 0%nat | exists 12%nat | exists 18%nat | exists 17%nat]; (split; [lia|]); left; split; reflexivity.
Qed.
(** Exactly the names of the table are accepted, exactly when all required
    parameters are there once the file inputs are normalised; the loader is
    called with the normalised parameters, the name and the minimum. *)
Theorem C41_selects : forall glob name p min_dp q, translate_file_input glob p = Ok q ->
  (forall cls req, In (lower name, (cls, req)) requirements -> (forall r, In r req -> sget q r <> None) ->
     exists p', get_dataloader glob name p min_dp = Ok (cls, p') /\
       sget p' "dataloader_name" = Some (JStr (lower name)) /\ sget p' "min_dp" = Some (JInt min_dp) /\
       forall x, x <> "dataloader_name" -> x <> "min_dp" -> sget p' x = sget q x) /\
  (forall cls req r, In (lower name, (cls, req)) requirements -> In r req -> sget q r = None ->
     get_dataloader glob name p min_dp = Err AssertionError) /\
  (~ In (lower name) (map fst requirements) -> get_dataloader glob name p min_dp = Err ValueError).
Proof. exact factory_spec. Qed.
Print Assumptions C41_selects.
Theorem C41_table_unambiguous : NoDup (map fst requirements).
Proof. exact requirements_nodup. Qed.
(** Which names need which parameters, and what else is in the table. *)
Theorem C41_required : forall name cls req r, In (name, (cls, req)) requirements -> (In r req <-> needs name r).
Proof. exact required_spec. Qed.
Print Assumptions C41_required.
Theorem C41_classes : forall name cls, In (name, cls) classes <-> exists req, In (name, (cls, req)) requirements.
Proof. exact class_spec. Qed.
Print Assumptions C41_classes.
Example C41_selects_case :
  get_dataloader (fun _ => []) "Gebco" [("file", JStr "a.nc")] 5 =
    Ok ("GEBCODataLoader", [("files", JArr [JStr "a.nc"]); ("dataloader_name", JStr "gebco"); ("min_dp", JInt 5)]) /\
  get_dataloader (fun _ => []) "gebco" [] 5 = Err AssertionError /\
  get_dataloader (fun _ => []) "geb" [] 5 = Err ValueError /\
  get_dataloader (fun g => if String.eqb g "d/*" then ["d/1"; "d/2"] else []) "MODIS" [("folder", JStr "d")] 3 =
    Ok ("MODISDataLoader", [("files", JArr [JStr "d/1"; JStr "d/2"]); ("dataloader_name", JStr "modis"); ("min_dp", JInt 3)]).
Proof. repeat split; vm_compute; reflexivity. Qed.
(** Two of the names the documentation lists are rejected. *)
Theorem C41_documented_refuted : forall glob name p min_dp q, In name ["square"; "era5_wave_height"] ->
  In name documented /\ (translate_file_input glob p = Ok q -> get_dataloader glob name p min_dp = Err ValueError).
Proof.
  intros glob name p k q [<-|[<-|[]]]; (split; [vm_compute; tauto|]); intros T;
    apply (factory_spec glob _ p k q T); apply sget_none; vm_compute; reflexivity.
Qed.
Print Assumptions C41_documented_refuted.
(** What normalising does. *)
Theorem C41_normalises : forall glob p q, dict_ok p -> translate_file_input glob p = Ok q ->
  (forall x, ~ In x ["file"; "folder"; "files"] -> sget q x = sget p x) /\
  sget q "file" = None /\
  match sget p "file", sget p "folder" with
  | Some f, d => sget q "files" = Some (JArr [f]) /\ sget q "folder" = d
  | None, Some d => exists s, d = JStr s /\ sget q "files" = Some (JArr (map JStr (glob (join_slash s ++ "*")))) /\ sget q "folder" = None
  | None, None => q = p
  end.
Proof. exact translate_spec. Qed.
Print Assumptions C41_normalises.
(** Twice is once, unless both a file and a folder are given. *)
Theorem C41_normalise_twice_partial : forall glob p q, dict_ok p -> sget p "file" = None \/ sget p "folder" = None ->
  translate_file_input glob p = Ok q -> translate_file_input glob q = Ok q.
Proof. exact translate_twice. Qed.
Print Assumptions C41_normalise_twice_partial.
Example C41_normalise_case : exists q, dict_ok [("folder", JStr "d/")] /\
  translate_file_input (fun _ => ["d/1"]) [("folder", JStr "d/")] = Ok q /\ q = [("files", JArr [JStr "d/1"])].
Proof. eexists. split; [repeat constructor; cbn; tauto|]. split; reflexivity. Qed.
Theorem C41_normalise_refuted : exists glob p q q', dict_ok p /\ translate_file_input glob p = Ok q /\
  translate_file_input glob q = Ok q' /\ sget q "files" <> sget q' "files".
Proof.
  exists (fun _ => []), [("file", JStr "a.nc"); ("folder", JStr "d")]. eexists. eexists.
  split; [repeat constructor; cbn; intuition discriminate|].
  split; [vm_compute; reflexivity|]. split; [vm_compute; reflexivity|]. discriminate.
Qed.
Print Assumptions C41_normalise_refuted.

(** C42.  Filling in the defaults twice is doing it once, for every loader class. *)
Theorem C42_idempotent : forall cls p p', add_default_params cls p = Ok p' -> add_default_params cls p' = Ok p'.
Proof. exact defaults_idempotent. Qed.
Print Assumptions C42_idempotent.
(** All classes except the abstract shapes, the random fields and AMSR keep
    everything the user gave. *)
Theorem C42_keeps : forall cls p p', ~ In cls special -> add_default_params cls p = Ok p' -> keeps p p'.
Proof. exact defaults_keep. Qed.
Print Assumptions C42_keeps.
(** The random fields keep everything but a data name of None; scalar shapes all
    but the width of a rectangle without height; AMSR all but the projection and
    its coordinate names; vector shapes all but the multiplier and the width. *)
Theorem C42_keeps_partial :
  (forall cls p p', scalar_grf_defaults cls p = Ok p' \/ vector_grf_defaults cls p = Ok p' ->
     forall k v, sget p k = Some v -> (k = "data_name" -> v <> JNull) -> sget p' k = Some v) /\
  (forall cls p, keeps_but ["width"] p (shape_defaults cls p)) /\
  (forall cls p s, sget p "dataloader_name" = Some (JStr s) -> s <> "rectangle" \/ sget p "height" <> None ->
     keeps p (shape_defaults cls p)) /\
  (forall cls p p', amsr_defaults cls p = Ok p' -> keeps_but ["in_proj"; "x_col"; "y_col"] p p') /\
  (forall cls p, keeps_but ["multiplier"; "width"] p (vector_shape_defaults cls p)).
Proof.
  split; [|split; [|split; [|split]]].
  - intros cls p p' [H|H]; [exact (grf_keeps cls p p' H) | apply (vgrf_facts cls p p' H)].
  - exact shape_keeps_but.
  - intros cls p s N H. apply shape_keeps. rewrite (base_is_name cls p s _ N). destruct H as [H|H].
    + left. apply String.eqb_neq. exact H.
    + right. apply given_some. exact H.
  - intros cls p p' H. apply (amsr_facts cls p p' H).
  - exact vshape_keeps_but.
Qed.
Print Assumptions C42_keeps_partial.
(** Every required parameter has a value afterwards. *)
Theorem C42_fills_partial :
  (forall cls p, fills base_required (base_defaults cls p)) /\ (forall cls p, fills lut_required (lut_defaults cls p)) /\
  (forall cls p s, sget p "dataloader_name" = Some (JStr s) -> s <> "rectangle" \/ sget p "height" <> None ->
     fills (base_required ++ shape_required s) (shape_defaults cls p)) /\
  (forall cls p p' b binary, scalar_grf_defaults cls p = Ok p' -> sget p "binary" = Some b -> (binary = true <-> equals_true b) ->
     fills (base_required ++ grf_required binary) p') /\
  (forall cls p p', vector_grf_defaults cls p = Ok p' -> fills (base_required ++ vector_grf_required) p') /\
  (forall cls p p', amsr_defaults cls p = Ok p' -> fills base_required p').
Proof.
  split; [|split; [|split; [|split; [|split]]]].
  - intros cls p k H. apply given_some, base_given, H.
  - intros cls p k H. apply given_some, lut_given, H.
  - intros cls p s N R k H. apply given_some. apply in_app_or in H. destruct H as [H|H].
    + apply shape_given_base, in_or_app. auto.
    + apply (shape_fills cls p s k N); [|exact H]. destruct R as [R|R]; [auto | right; apply given_some; exact R].
  - intros cls p p' b binary E B T k H. rewrite <- (true_read b binary T) in H. apply given_some, (grf_fills cls p p' b E B). apply in_app_or. exact H.
  - intros cls p p' E k H. apply given_some, (vgrf_facts cls p p' E). apply in_app_or. exact H.
  - intros cls p p' E k H. apply given_some, (amsr_facts cls p p' E). exact H.
Qed.
Print Assumptions C42_fills_partial.
(** The loaders of tables of polygons get these three and nothing else. *)
Theorem C42_tables : forall cls p p', In cls ["ThicknessDataLoader"; "DensityDataLoader"; "ScotlandNCMPA"; "LutCSV"; "LutGeoJSON"; "LutShapefile"] ->
  add_default_params cls p = Ok p' -> fills lut_required p' /\ forall k, ~ In k lut_required -> sget p' k = sget p k.
Proof.
  intros cls p p' H E. assert (X : p' = lut_defaults cls p).
  { cbn in H. decompose [or] H; subst; try contradiction; injection E as <-; try reflexivity; apply lut_file_same. }
  subst p'. split; [intros k K; apply given_some, lut_given, K|]. intros k N. unfold lut_defaults. cbv zeta. rewrite !sget_dflt.
  cbn [In lut_required] in N. repeat match goal with |- context [String.eqb k ?c] => destruct (String.eqb_spec k c) as [->|_]; [exfalso; tauto|] end. reflexivity.
Qed.
Print Assumptions C42_tables.
Example C42_case :
  sget (shape_defaults "ShapeDataLoader" [("dataloader_name", JStr "circle"); ("radius", JInt 7)]) "radius" = Some (JInt 7) /\
  sget (shape_defaults "ShapeDataLoader" [("dataloader_name", JStr "circle"); ("radius", JInt 7)]) "nx" = Some (JInt 101) /\
  (exists p', add_default_params "VectorGRFDataLoader" [("data_name", JStr "a,b")] = Ok p' /\ sget p' "vec_y" = Some (JStr "b")) /\
  ~ In "GEBCODataLoader" special.
Proof.
  repeat split; try (vm_compute; reflexivity).
  - eexists. split; vm_compute; reflexivity.
  - cbn. intuition discriminate.
Qed.
(** A rectangle given without height: the user's width is replaced by 1 and there
    is still no height. *)
Theorem C42_rectangle_refuted : forall cls p w, sget p "dataloader_name" = Some (JStr "rectangle") ->
  sget p "height" = None -> sget p "width" = Some w ->
  sget (shape_defaults cls p) "width" = Some (JInt 1) /\ sget (shape_defaults cls p) "height" = None.
Proof.
  intros cls p w N H W. unfold shape_defaults. cbv zeta. names. rewrite !(base_is_name cls p "rectangle") by exact N.
  cbn [String.eqb Ascii.eqb Bool.eqb].
  set (r := dflt "width" (JInt 1) _).
  assert (Eh : sget r "height" = None).
  { subst r. unfold base_defaults. cbv zeta. repeat (rewrite sget_dflt; cbn [String.eqb Ascii.eqb Bool.eqb]). exact H. }
  assert (G : given r "height" = false) by (unfold given; rewrite Eh; reflexivity). rewrite G.
  rewrite !sget_dflt. cbn [String.eqb Ascii.eqb Bool.eqb]. rewrite !sget_sset. cbn [String.eqb Ascii.eqb Bool.eqb]. auto.
Qed.
Print Assumptions C42_rectangle_refuted.
(** The vector shapes the factory knows get none of the shape's parameters: what
    the user did not give stays missing.  A multiplier the user gave is replaced. *)
Theorem C42_vector_shape_refuted :
  (forall cls p s k, sget p "dataloader_name" = Some (JStr s) -> In s ["vector_circle"; "vector_gradient"; "vector_rectangle"] ->
     In k ["multiplier_u"; "multiplier_v"; "radius"; "centre"; "width"; "height"; "vertical"] ->
     sget (vector_shape_defaults cls p) k = sget p k) /\
  (forall s, In s ["vector_circle"; "vector_gradient"; "vector_rectangle"] ->
     ~ fills (vector_shape_required s) (vector_shape_defaults "VectorShapeDataLoader" [("dataloader_name", JStr s)])) /\
  sget (vector_shape_defaults "VectorShapeDataLoader" [("dataloader_name", JStr "vector_circle"); ("multiplier", JInt 4)]) "multiplier" = Some (JInt 1).
Proof.
  split; [exact vshape_other|]. split; [|vm_compute; reflexivity].
  intros s H F. assert (K : In "multiplier_u" (vector_shape_required s)) by (destruct H as [<-|[<-|[<-|[]]]]; cbn; auto).
  specialize (F _ K). rewrite (vshape_other _ _ s) in F; [apply F; reflexivity | reflexivity | exact H | cbn; auto].
Qed.
Print Assumptions C42_vector_shape_refuted.
(** AMSR replaces a projection the user gave; the default data name of the
    GeoJSON and shapefile tables never applies, the name stays None. *)
Theorem C42_amsr_refuted : exists p p', amsr_defaults "AMSRDataLoader" p = Ok p' /\
  sget p "in_proj" = Some (JStr "EPSG:3976") /\ sget p' "in_proj" = Some (JStr "EPSG:3412").
Proof.
  exists [("hemisphere", JStr "South"); ("in_proj", JStr "EPSG:3976")]. eexists. split; [vm_compute; reflexivity|]. split; reflexivity.
Qed.
Print Assumptions C42_amsr_refuted.
Theorem C42_lut_name_refuted : forall cls p, sget p "data_name" = None -> sget (lut_file_defaults cls p) "data_name" = Some JNull.
Proof.
  intros cls p H. rewrite lut_file_same. unfold lut_defaults. cbv zeta.
  rewrite !sget_dflt. cbn [String.eqb Ascii.eqb Bool.eqb]. rewrite H. reflexivity.
Qed.
Print Assumptions C42_lut_name_refuted.

(** C53.  The fill type of a source: a number, "parent" or "Nan" as given,
    "parent" for anything else. *)
Theorem C53_fill_type : forall float_text p,
  (sget p "value_fill_types" = None -> check_value_fill_type float_text p = Ok (JStr "parent")) /\
  (forall z, sget p "value_fill_types" = Some (JInt z) -> check_value_fill_type float_text p = Ok (JInt z)) /\
  (forall q, sget p "value_fill_types" = Some (JFloat q) -> check_value_fill_type float_text p = Ok (JFloat q)) /\
  (forall s, sget p "value_fill_types" = Some (JStr s) -> s = "parent" \/ s = "Nan" ->
     check_value_fill_type float_text p = Ok (JStr s)) /\
  (forall s, sget p "value_fill_types" = Some (JStr s) -> float_text s = false -> s <> "parent" -> s <> "Nan" ->
     check_value_fill_type float_text p = Ok (JStr "parent")) /\
  (sget p "value_fill_types" = Some JNull -> check_value_fill_type float_text p = Ok (JStr "parent")).
Proof.
  intros ft p. unfold check_value_fill_type.
  split; [|split; [|split; [|split; [|split]]]]; intros; repeat match goal with H : sget _ _ = _ |- _ => rewrite H; clear H end; try reflexivity.
  - destruct H0 as [-> | ->]; cbn [String.eqb Ascii.eqb Bool.eqb]; rewrite ?orb_true_r; reflexivity.
  - destruct (String.eqb_spec s "parent"); [contradiction|]. destruct (String.eqb_spec s "Nan"); [contradiction|].
    rewrite H0. reflexivity.
Qed.
Print Assumptions C53_fill_type.
Example C53_case : check_value_fill_type (fun _ => false) [("value_fill_types", JStr "mean")] = Ok (JStr "parent") /\
  check_value_fill_type (fun _ => false) [("value_fill_types", JInt 0)] = Ok (JInt 0).
Proof. split; reflexivity. Qed.
(** A text that reads as a number is kept as a text, and a list raises instead of
    falling back to "parent". *)
Theorem C53_refuted : (forall float_text s, float_text s = true ->
    check_value_fill_type float_text [("value_fill_types", JStr s)] = Ok (JStr s)) /\
  (forall float_text l, check_value_fill_type float_text [("value_fill_types", JArr l)] = Err TypeError).
Proof. split; [intros ft s H; unfold check_value_fill_type; cbn; rewrite H; reflexivity | reflexivity]. Qed.
Print Assumptions C53_refuted.
