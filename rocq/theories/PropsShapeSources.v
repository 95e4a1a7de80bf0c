(** Property theorem C93: from configured shapes to the values of cells.  Parameters as in
    PropsWhole.v.  The proofs are in ShapeSourcesProofs.v and WholeProofs.v. *)
From Coq Require Import Permutation.
From Verif Require Import Shapes ShapeProofs Base Geo Graph Cell Loaders AddLoader VecLoader Builder Env Spec MeshSpec EnvSpec DataSpec QLib Construct ConstructSpec Names PyStr Dates DateSpec Config ConfigSpec Params ParamSpec
  Reproject ReprojectSpec Pipeline PipeSpec ConfigProofs PipeProofs Sources SourcesSpec SourcesProofs PropsSources MixSpec MixProofs PropsMix VecSources VecSourcesSpec VecSourcesProofs PropsVecSources
  Lut LutSpec LutFiles LutSources TableSpec PropsLut PropsLutFiles PropsTable ShapeSources ShapeSourcesSpec ShapeSourcesProofs AllSources WholeSpec WholeProofs.
From Verif Require ShapeSpec.
Open Scope string_scope.
Open Scope Z_scope.

(** Every shape with parameters of the right kinds is described. *)
Theorem C93_described : forall b p nx ny, plain_region b -> 2 <= nx -> 2 <= ny ->
  (forall m r cy cx, number_or p "multiplier" 1 m -> number_or p "radius" 1 r -> centre_or p cy cx -> ShapeSpec.centre_given cy ny -> ShapeSpec.centre_given cx nx ->
     exists d, shape_rows b p nx ny "circle" d) /\
  (forall m w h cy cx, number_or p "multiplier" 1 m -> number_or p "width" 1 w -> number_at p "height" h -> centre_or p cy cx -> ShapeSpec.centre_given cy ny -> ShapeSpec.centre_given cx nx ->
     exists d, shape_rows b p nx ny "rectangle" d) /\
  (forall m up, number_or p "multiplier" 1 m -> flag_or p "vertical" true up -> exists d, shape_rows b p nx ny "gradient" d) /\
  (forall w h, number_or p "multiplier" 1 1 -> squares_or p w h -> (0 < w)%Q -> (0 < h)%Q -> exists d, shape_rows b p nx ny "checkerboard" d) /\
  (forall mu mv r cy cx, number_at p "radius" r -> given_centre p cy cx -> ShapeSpec.centre_given cy ny -> ShapeSpec.centre_given cx nx ->
     exists d, vector_shape_rows b p nx ny mu mv "vector_circle" d) /\
  (forall mu mv w h cy cx, number_at p "width" w -> number_at p "height" h -> given_centre p cy cx -> ShapeSpec.centre_given cy ny -> ShapeSpec.centre_given cx nx ->
     exists d, vector_shape_rows b p nx ny mu mv "vector_rectangle" d) /\
  (forall mu mv up, sget p "vertical" = Some (JBool up) -> exists d, vector_shape_rows b p nx ny mu mv "vector_gradient" d).
Proof.
  intros b p nx ny (_ & R2 & _ & R4 & _) Nx Ny.
  assert (Dl : ~ (lat_min b == lat_max b)%Q) by lra. assert (Do : ~ (long_min b == long_max b)%Q) by lra.
  assert (O : forall (axis : Q -> Q -> Z -> list Q -> Prop) (right : data -> Prop) g, axis (lat_min b) (lat_max b) ny (g_lat g) -> axis (long_min b) (long_max b) nx (g_long g) -> right (grid_rows g) -> over_region axis b nx ny right (grid_rows g)).
  { intros axis right g A1 A2 R. exists (g_lat g), (g_long g), (grid_rows g). split; [exact A1|]. split; [exact A2|]. split; [apply grid_rows_spec|]. split; [exact R|apply Permutation_refl]. }
  split; [|split; [|split; [|split; [|split; [|split]]]]].
  - intros m r cy cx H1 H2 H3 H4 H5. destruct (circle (mkShape nx ny [m] (cy, cx) r 0 0 false (0, 0)%Q) b) as (g & G & F & L1 & L2); try (cbn; lia); try assumption.
    exists (grid_rows g). eapply sr_circle; try eassumption. apply O; [apply linspace_axis; [lia|exact L1]|apply linspace_axis; [lia|exact L2]|exact F].
  - intros m w h cy cx H1 H2 H3 H4 H5 H6. destruct (rectangle (mkShape nx ny [m] (cy, cx) 0 w h false (0, 0)%Q) b) as (g & G & F & L1 & L2); try (cbn; lia); try assumption.
    exists (grid_rows g). eapply sr_rectangle; try eassumption. apply O; [apply linspace_axis; [lia|exact L1]|apply linspace_axis; [lia|exact L2]|exact F].
  - intros m up H1 H2. destruct (gradient (mkShape nx ny [m] (None, None) 0 0 0 up (0, 0)%Q) b) as (g & G & F & L1 & L2); try (cbn; lia); try (cbn; destruct up; assumption).
    exists (grid_rows g). eapply sr_gradient; try eassumption. apply O; [apply linspace_axis; [lia|exact L1]|apply linspace_axis; [lia|exact L2]|exact F].
  - intros w h H1 H2 H3 H4. destruct (checkerboard (mkShape nx ny [] (None, None) 0 0 0 false (w, h)) b) as (g & G & F & L1 & L2); try (cbn; lia); try assumption.
    exists (grid_rows g). eapply sr_checkerboard; try eassumption. apply O; [apply linspace_below; [lia|exact L1]|apply linspace_below; [lia|exact L2]|exact F].
  - intros mu mv r cy cx H2 H3 H4 H5. destruct (circle (mkShape nx ny [mu; mv] (cy, cx) r 0 0 false (0, 0)%Q) b) as (g & G & F & L1 & L2); try (cbn; lia); try assumption.
    exists (grid_rows g). eapply vr_circle; try eassumption. apply O; [apply linspace_axis; [lia|exact L1]|apply linspace_axis; [lia|exact L2]|exact F].
  - intros mu mv w h cy cx H2 H3 H4 H5 H6. destruct (rectangle (mkShape nx ny [mu; mv] (cy, cx) 0 w h false (0, 0)%Q) b) as (g & G & F & L1 & L2); try (cbn; lia); try assumption.
    exists (grid_rows g). eapply vr_rectangle; try eassumption. apply O; [apply linspace_axis; [lia|exact L1]|apply linspace_axis; [lia|exact L2]|exact F].
  - intros mu mv up H2. destruct (vector_gradient (mkShape nx ny [mu; mv] (None, None) 0 0 0 up (0, 0)%Q) b mu mv) as (g & G & F & L1 & L2); try (cbn; lia); try (cbn; destruct up; assumption); [reflexivity|].
    exists (grid_rows g). eapply vr_gradient; try eassumption. apply O; [apply linspace_axis; [lia|exact L1]|apply linspace_axis; [lia|exact L2]|exact F].
Qed.
Print Assumptions C93_described.

(** For a validated configuration whose sources are shapes with names of their own,
    building ends with a mesh that survives writing and reading, and every cell is
    quartered and holds values as called for by the points of the shapes. *)
Theorem C93_shapes_partial : forall o edge files pad now glob ft sqrt dsin dcos proj read_csv open_nc read_table read_shapes cfg s b ss0,
  validate_mesh_config files cfg = Ok tt -> says cfg s -> from_json pad now cfg = Ok b ->
  admissible b (s_width s) (s_height s) ->
  (s_lat_min s < s_lat_max s)%Q -> (s_lat_max s - s_lat_min s < 360)%Q -> 0 <= s_points s ->
  Forall2 (describes_shape b (s_points s)) (s_loaders s) ss0 -> names_apart ss0 ->
  exists ss fuel em em',
    Forall2 (describes_shape b (s_points s)) (s_loaders s) ss /\ map names_of ss = map names_of ss0 /\
    (forall fuel', (fuel <= fuel')%nat ->
       generate files pad now glob ft (construct_all o edge sqrt dsin dcos proj read_csv open_nc read_table read_shapes) fuel' cfg = Ok em) /\
    load_from_json (to_json em) = Ok em' /\
    map e_id (em_cells em') = map e_id (em_cells em) /\ map e_data (em_cells em') = map e_data (em_cells em) /\
    env_tiles (region b) (em_cells em') /\
    (forall c, In c (em_cells em) -> as_wanted sqrt ss b (s_width s) (s_height s) (s_depth s) c).
Proof.
  intros o edge files pad now glob ft sqrt dsin dcos proj read_csv open_nc read_table read_shapes cfg s b ss0 Hv Hs Hb Ha Hl Hl' Hp Hf Hn.
  destruct (from_json_says pad now cfg s b Hs Hb) as (F1 & F2 & F3 & F4 & F5 & _).
  assert (R : plain_region b).
  { destruct Ha as (((V1 & V2 & V3 & V4) & V5) & _). split; [exact V3|]. split; [exact V1|]. split; [exact V4|]. split; [rewrite F1, F2; exact Hl|exact V5]. }
  set (construct := construct_all o edge sqrt dsin dcos proj read_csv open_nc read_table read_shapes).
  assert (All : forall srcs ss0 k, Forall2 (describes_shape b (s_points s)) srcs ss0 -> (forall v, In (Vector v) ss0 -> fit_names (v_names v)) ->
    exists ss ts, List.length ss = List.length srcs /\
      (forall i src t, nth_error srcs i = Some src -> nth_error ss i = Some t -> provides glob construct sqrt b (s_points s) (k + i) src t) /\
      Forall2 (sagree b) ss ts /\ Forall2 (describes_shape b (s_points s)) srcs ts /\ Forall2 alike ts ss0).
  { clear - R. intros srcs ss0 k F. revert k. induction F as [|src s0 srcs ss0 D F IH]; intros k Fn.
    - exists [], []. split; [reflexivity|]. split; [intros [|i] ? ? E; discriminate|]. repeat split; constructor.
    - destruct (shape_provided o edge sqrt dsin dcos proj glob read_csv open_nc read_table read_shapes b (s_points s) k src s0 R) as (s' & t & Pr & A & Dt & Al); [|exact D|].
      { intros v ->. apply Fn. left. reflexivity. }
      destruct (IH (S k)) as (ss & ts & Le & Prs & Ag & De & As); [intros v I; apply Fn; right; exact I|].
      exists (s' :: ss), (t :: ts). split; [cbn; rewrite Le; reflexivity|]. split; [|repeat split; constructor; assumption].
      intros [|i] s1 f1 X1 X2; cbn in X1, X2.
      + injection X1 as <-. injection X2 as <-. rewrite Nat.add_0_r. exact Pr.
      + replace (k + S i)%nat with (S k + i)%nat by lia. apply Prs; assumption. }
  destruct (All (s_loaders s) ss0 0%nat Hf) as (ss & ts & Le & Pr & Ag & De & Al).
  { intros v I. split; [apply (proj1 (proj2 Hn)), I|]. intros n In. apply (proj1 Hn (Vector v) n I In). }
  assert (At : names_apart ts).
  { apply (alike_apart ss0); [|exact Hn]. clear - Al. induction Al; constructor; [apply alike_sym; assumption|assumption]. }
  assert (As : names_apart ss).
  { apply (alike_apart ts); [|exact At]. clear - Ag. induction Ag; constructor; [apply alike_sym; eapply sagree_alike; eassumption|assumption]. }
  destruct (C87_generated_partial files pad now glob ft construct sqrt cfg s b ss Hv Hs Hb Ha Hl Hl' Hp Le Pr As)
    as (fuel & em & em' & G & L & _ & _ & _ & _ & I & D & _ & _ & T & _ & _ & C).
  exists ts, fuel, em, em'. split; [exact De|]. split; [clear - Al; induction Al as [|t s0 ts ss0 A Al IH]; [reflexivity|cbn [map]; rewrite IH; f_equal; apply alike_names, A]|].
  split; [exact G|]. split; [exact L|]. split; [exact I|]. split; [exact D|]. split; [exact T|].
  intros c Ic. apply (sagree_wanted sqrt b ss ts); [apply R|apply Ha|apply Ha|exact Ag|apply C, Ic].
Qed.
Print Assumptions C93_shapes_partial.

(** ** A case *)
(** A disc by which cells are split, and a vector rising with the longitude. *)
Definition sh_condition : json :=
  JObj [("ice", JObj [("threshold", JInt 1); ("lower_bound", JFloat (1#10)); ("upper_bound", JFloat (9#10))])].
Definition sh_params : list (string * params) :=
  [("circle", [("nx", JInt 5); ("ny", JInt 5); ("multiplier", JInt 2); ("radius", JInt 3); ("centre", JArr [JNull; JInt 15]); ("data_name", JStr "ice"); ("splitting_conditions", JArr [sh_condition])]);
   ("vector_gradient", [("nx", JInt 3); ("ny", JInt 3); ("multiplier_u", JInt 2); ("multiplier_v", JInt 1); ("vertical", JBool false)])].
Definition sh_config : json := tab_config sh_params.
Definition sh_settings : settings := mkSettings 0 10 0 20 "2017-02-01" "2017-02-04" 10 10 1 2 sh_params.
Lemma sh_says : says sh_config sh_settings.
Proof.
  unfold sh_config, tab_config. do 4 eexists. split; [reflexivity|]. split; [reflexivity|]. split.
  - unfold region_says, ConfigSpec.number_at, text_at, only_keys. cbn [s_lat_min s_lat_max s_long_min s_long_max s_start s_end s_width s_height sh_settings].
    repeat split; try (eexists; split; [reflexivity|]; match goal with |- number (JInt ?z) _ => exact (num_int z) end).
    cbn [In]. intros k v H. repeat (destruct H as [[= <- _]|H]; [tauto|]). destruct H.
  - split; [reflexivity|]. split.
    + cbn [map sh_params s_loaders sh_settings]. repeat (apply Forall2_cons; [eexists; split; [reflexivity|]; unfold text_at, only_keys; cbn [fst snd]; repeat split;
        cbn [In]; intros k v H; repeat (destruct H as [[= <- _]|H]; [tauto|]); destruct H|]). apply Forall2_nil.
    + split; [reflexivity|]. unfold whole_at, only_keys. cbn [s_depth s_points sh_settings]. repeat split.
      * eexists. split; [reflexivity|constructor].
      * eexists. split; [reflexivity|constructor].
      * cbn [In]. intros k v H. repeat (destruct H as [[= <- _]|H]; [tauto|]). destruct H.
Qed.
Lemma sh_described : exists ss0, map names_of ss0 = [["ice"]; ["dummy_data_u"; "dummy_data_v"]] /\ names_apart ss0 /\ Forall2 (describes_shape mix_bounds 2) (s_loaders sh_settings) ss0.
Proof.
  assert (R : plain_region mix_bounds) by (repeat split; cbn; try lra; right; do 2 eexists; split; [reflexivity|discriminate]).
  destruct (C93_described mix_bounds (snd (nth 0 sh_params ("", []))) 5 5 R) as (C & _); try lia.
  destruct (C 2%Q 3%Q None (Some 15%Q)) as (d & D); [exact (num_int 2)|exact (num_int 3)|do 2 eexists; split; [reflexivity|]; split; [reflexivity|exact (num_int 15)]|split; [lia|reflexivity]|cbn; intros H; discriminate|].
  destruct (C93_described mix_bounds (snd (nth 1 sh_params ("", []))) 3 3 R) as (_ & _ & _ & _ & _ & _ & G); try lia.
  destruct (G 2%Q 1%Q false) as (d' & D'); [reflexivity|].
  exists [Scalar (mkFeed "ice" true "MEAN" 2 [mkCond 1 (1#10) (9#10) false] FillParent d); Vector (mkVFeed ["dummy_data_u"; "dummy_data_v"] true "MEAN" 2 [] d')].
  split; [reflexivity|]. split; [split; [|split]|].
  - intros s n I H. cbn in I. assert (N : n = "ice" \/ n = "dummy_data_u" \/ n = "dummy_data_v") by (destruct I as [<-|[<-|[]]]; cbn in H; intuition congruence).
    destruct N as [->|[->| ->]]; (split; [intros a b; do 13 (try destruct a as [|? a]); cbn; discriminate|cbn; intuition discriminate]).
  - intros v [E|[E|[]]]; [discriminate|]; injection E as <-; (cbn; split; [repeat constructor; cbn; intuition discriminate|lia]).
  - intros [|[|[|i]]] [|[|[|j]]] v t n Ne Hi Hj I; cbn in Hi, Hj; try discriminate; try congruence;
    injection Hi as <-; injection Hj as <-; cbn in I |- *; intuition congruence.
  - apply Forall2_cons; [|apply Forall2_cons; [|apply Forall2_nil]]; cbn [describes_shape].
    + exists "circle", 5, 5. split; [cbn; repeat split; left; reflexivity|]. split; [|split; [split; reflexivity|split; [repeat split; try lia|split; [exact D|reflexivity]]]].
      constructor; cbn [fst snd f_name f_agg f_min f_conds f_fill].
      * unfold dict_ok. nodup_keys.
      * cbn. split; [reflexivity|]. cbn. intuition discriminate.
      * reflexivity.
      * cbn. tauto.
      * reflexivity.
      * exists "EPSG:4326". split; reflexivity.
      * split; eexists; reflexivity.
      * left. reflexivity.
      * cbn. eexists. split; [reflexivity|]. constructor; [|constructor]. do 2 eexists. split; [reflexivity|]. split; [reflexivity|].
        unfold ConfigSpec.number_at. repeat split; eexists; (split; [reflexivity|]); [exact (num_int 1)|exact (num_float _)|exact (num_float _)].
      * reflexivity.
    + exists "vector_gradient", 3, 3, 2%Q, 1%Q. split; [cbn; repeat split; left; reflexivity|].
      split; [|split; [split; reflexivity|split; [repeat split; try lia|split; [eexists; split; [reflexivity|exact (num_int 2)]|split; [eexists; split; [reflexivity|exact (num_int 1)]|split; [exact D'|split; reflexivity]]]]]].
      constructor; cbn [fst snd v_names v_agg v_min v_conds].
      * unfold dict_ok. nodup_keys.
      * reflexivity.
      * split; reflexivity.
      * split; [nodup_keys|]. intros c [<-|[<-|[]]]; (split; [intros a b; do 13 (try destruct a as [|? a]); cbn; discriminate|unfold a_coordinate; cbn; intuition discriminate]).
      * reflexivity.
      * cbn. tauto.
      * reflexivity.
      * exists "EPSG:4326". split; reflexivity.
      * split; eexists; reflexivity.
      * left. reflexivity.
      * reflexivity.
      * reflexivity.
Qed.
Notation sh_construct := (construct_all boxes edge_boxes (fun q => q) (fun q => q) (fun q => q) (fun _ _ x y => (x, y)) vs_csv vs_nc (fun _ => Err FileNotFoundError) tab_shapes).
(** The hypotheses hold; the right half is quartered where the disc is, the vectors rise
    from cell to cell. *)
Example C93_case :
  validate_mesh_config (fun _ => None) sh_config = Ok tt /\ says sh_config sh_settings /\ from_json false 0 sh_config = Ok mix_bounds /\ admissible mix_bounds 10 10 /\
  (exists ss0, map names_of ss0 = [["ice"]; ["dummy_data_u"; "dummy_data_v"]] /\ names_apart ss0 /\ Forall2 (describes_shape mix_bounds 2) (s_loaders sh_settings) ss0) /\
  exists em, generate (fun _ => None) false 0 (fun _ => []) (fun _ => false) sh_construct 100 sh_config = Ok em /\
    map (fun c => (e_id c, map (fun kv => match snd kv with JNum (Some q) => Qred q | _ => -1 end) (e_data c)))%Q (em_cells em) =
      map (fun x => (fst x, map inject_Z (snd x))) [(0, [0; 1; 0]); (2, [1; 2; 0]); (3, [0; 2; 0]); (4, [2; 2; 0]); (5, [0; 2; 0])].
Proof.
  split; [vm_compute; reflexivity|]. split; [exact sh_says|]. split; [vm_compute; reflexivity|]. split; [|split; [exact sh_described|]].
  - split; [|split; [reflexivity|split; [reflexivity|]]].
    + split; [cbn; lra|]. right. do 2 eexists. split; [reflexivity|]. discriminate.
    + intros [H _]. cbn in H. lra.
  - eexists. split; [vm_compute; reflexivity|]. vm_compute. reflexivity.
Qed.

(** Shapes whose parameters are left to their defaults (finding, with C42_rectangle_refuted
    and C42_vector_shape_refuted): the configuration is valid, building raises
    AttributeError. *)
Theorem C93_defaults_refuted : forall name, In name ["rectangle"; "vector_circle"; "vector_rectangle"; "vector_gradient"] ->
  let cfg := tab_config [(name, [])] in
  validate_mesh_config (fun _ => None) cfg = Ok tt /\
  forall o edge glob ft sqrt dsin dcos proj read_csv open_nc read_table read_shapes fuel,
    generate (fun _ => None) false 0 glob ft (construct_all o edge sqrt dsin dcos proj read_csv open_nc read_table read_shapes) fuel cfg = Err AttributeError.
Proof.
  intros name I. repeat (destruct I as [<-|I]; [split; [vm_compute; reflexivity|intros; vm_compute; reflexivity]|]). destruct I.
Qed.
Print Assumptions C93_defaults_refuted.
