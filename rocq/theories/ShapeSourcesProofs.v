(** Proofs about the synthetic shapes as sources (C93). *)
From Coq Require Import Permutation Sorting.Sorted.
From Verif Require Import Base Geo Graph Cell Loaders AddLoader VecLoader Builder Env Spec MeshSpec EnvSpec DataSpec QLib Construct ConstructSpec Names PyStr StrLib Config ConfigSpec Params ParamSpec
  Downsample Pipeline PipeSpec Sources SourcesSpec VecHomSpec MixSpec VecSources VecSourcesSpec
  TrimProofs XrProofs ConstructProofs ParamProofs NamesProofs PipeProofs SourcesProofs MixProofs VecSourcesProofs Shapes ShapeProofs PropsShape ShapeSources ShapeSourcesSpec.
From Verif Require NamesSpec ShapeSpec.
Open Scope string_scope.
Open Scope Z_scope.

(** ** Parameters *)
Definition extras (name : string) : list (string * json) :=
  ([("nx", JInt 101); ("ny", JInt 101); ("multiplier", JInt 1)] ++
   (if String.eqb name "circle" then [("radius", JInt 1); ("centre", no_centre)]
    else if String.eqb name "rectangle" then [("width", JInt 1); ("centre", no_centre)]
    else if String.eqb name "gradient" then [("vertical", JBool true)]
    else [("gridsize", JArr [JInt 1; JInt 1])]))%list.
Lemma shape_values cls p name k : sget p "dataloader_name" = Some (JStr name) -> In name ["circle"; "rectangle"; "gradient"; "checkerboard"] ->
  (name = "rectangle" -> sget p "height" <> None) ->
  sget (shape_defaults cls p) k = match sget p k with Some v => Some v | None => match sget (base_list cls) k with Some v => Some v | None => sget (extras name) k end end.
Proof.
  intros N I H. unfold shape_defaults. cbv zeta. names. rewrite !(base_is_name cls p name) by exact N.
  assert (X : forall l, sget (fold_dflt l (base_defaults cls p)) k = match sget p k with Some v => Some v | None => match sget (base_list cls) k with Some v => Some v | None => sget l k end end)
    by (intros l; rewrite sget_fold, sget_base; destruct (sget p k); reflexivity).
  assert (Y : sget (base_defaults cls p) "height" = sget p "height") by (rewrite sget_base; destruct (sget p "height"); reflexivity).
  revert X Y. generalize (base_defaults cls p). intros q X Y.
  cbn [In] in I. destruct I as [<-|[<-|[<-|[<-|[]]]]]; cbn [String.eqb Ascii.eqb Bool.eqb].
  - rewrite <- (X (extras "circle")). reflexivity.
  - assert (G : given (dflt "width" (JInt 1) (dflt "multiplier" (JInt 1) (dflt "ny" (JInt 101) (dflt "nx" (JInt 101) q)))) "height" = true).
    { apply ParamProofs.given_some. rewrite !sget_dflt. cbn [String.eqb Ascii.eqb Bool.eqb]. rewrite Y. apply H. reflexivity. }
    rewrite G. rewrite <- (X (extras "rectangle")). reflexivity.
  - rewrite <- (X (extras "gradient")). reflexivity.
  - rewrite <- (X (extras "checkerboard")). reflexivity.
Qed.
Lemma shape_given glob (src : string * params) min_dp name : same_name (fst src) name -> In name ["circle"; "rectangle"; "gradient"; "checkerboard"] -> unfiled (snd src) ->
  (name = "rectangle" -> sget (snd src) "height" <> None) ->
  exists p', given_to glob src min_dp "ShapeDataLoader" p' /\ sget p' "dataloader_name" = Some (JStr name) /\ sget p' "min_dp" = Some (JInt min_dp) /\
    forall k, ~ In k ["dataloader_name"; "min_dp"] -> sget p' k =
      match sget (snd src) k with Some v => Some v | None => match sget (base_list "ShapeDataLoader") k with Some v => Some v | None => sget (extras name) k end end.
Proof.
  destruct src as [nm p]. cbn [fst snd]. intros Sn I (U1 & U2) H.
  assert (T : translate_file_input glob p = Ok p) by (unfold translate_file_input; rewrite U1, U2; reflexivity).
  destruct (factory_spec glob nm p min_dp p T) as (F & _). destruct (F "ShapeDataLoader" []) as (p1 & E & N1 & N2 & O).
  { rewrite (lower_same_name _ _ Sn). cbn [In] in I. repeat (destruct I as [<-|I]; [vm_compute; tauto|]). destruct I. } { intros r []. }
  assert (L : lower nm = name). { rewrite (lower_same_name _ _ Sn). cbn [In] in I. repeat (destruct I as [<-|I]; [reflexivity|]). destruct I. }
  rewrite L in N1. exists (shape_defaults "ShapeDataLoader" p1).
  assert (V : forall k, sget (shape_defaults "ShapeDataLoader" p1) k =
     match sget p1 k with Some v => Some v | None => match sget (base_list "ShapeDataLoader") k with Some v => Some v | None => sget (extras name) k end end).
  { intros k. apply shape_values; [exact N1|exact I|]. intros Hn. rewrite O by discriminate. apply H, Hn. }
  split; [exists p1; split; [exact E|reflexivity]|]. split; [rewrite V, N1; reflexivity|]. split; [rewrite V, N2; reflexivity|].
  intros k K. cbn [In] in K. rewrite V, O by (intros ->; tauto). reflexivity.
Qed.
Lemma two_dflt q k : sget (dflt "ny" (JInt 101) (dflt "nx" (JInt 101) q)) k = sget (fold_dflt [("nx", JInt 101); ("ny", JInt 101)] q) k.
Proof. reflexivity. Qed.
Definition vector_shapes : list string := ["vector_circle"; "vector_rectangle"; "vector_gradient"].
Lemma vector_shape_given glob (src : string * params) min_dp name : same_name (fst src) name -> In name vector_shapes -> unfiled (snd src) ->
  exists p', given_to glob src min_dp "VectorShapeDataLoader" p' /\ sget p' "dataloader_name" = Some (JStr name) /\ sget p' "min_dp" = Some (JInt min_dp) /\
    forall k, ~ In k ["dataloader_name"; "min_dp"; "multiplier"] -> sget p' k =
      match sget (snd src) k with Some v => Some v | None => match sget (base_list "VectorShapeDataLoader") k with Some v => Some v | None => sget [("nx", JInt 101); ("ny", JInt 101)] k end end.
Proof.
  destruct src as [nm p]. cbn [fst snd]. intros Sn I (U1 & U2).
  assert (T : translate_file_input glob p = Ok p) by (unfold translate_file_input; rewrite U1, U2; reflexivity).
  destruct (factory_spec glob nm p min_dp p T) as (F & _). destruct (F "VectorShapeDataLoader" []) as (p1 & E & N1 & N2 & O).
  { rewrite (lower_same_name _ _ Sn). unfold vector_shapes in I. cbn [In] in I. repeat (destruct I as [<-|I]; [vm_compute; tauto|]). destruct I. } { intros r []. }
  assert (L : lower nm = name). { rewrite (lower_same_name _ _ Sn). unfold vector_shapes in I. cbn [In] in I. repeat (destruct I as [<-|I]; [reflexivity|]). destruct I. }
  rewrite L in N1. exists (vector_shape_defaults "VectorShapeDataLoader" p1).
  assert (V : forall k, k <> "multiplier" -> sget (vector_shape_defaults "VectorShapeDataLoader" p1) k =
     match sget p1 k with Some v => Some v | None => match sget (base_list "VectorShapeDataLoader") k with Some v => Some v | None => sget [("nx", JInt 101); ("ny", JInt 101)] k end end).
  { intros k K. rewrite vshape_form.
    assert (Z : vshape_part (is_name (base_defaults "VectorShapeDataLoader" p1)) = fun r => r).
    { unfold vshape_part. rewrite !(base_is_name "VectorShapeDataLoader" p1 name) by exact N1. unfold vector_shapes in I. cbn [In] in I. repeat (destruct I as [<-|I]; [reflexivity|]). destruct I. }
    rewrite Z. unfold mult_part.
    assert (X : sget (dflt "ny" (JInt 101) (dflt "nx" (JInt 101) (base_defaults "VectorShapeDataLoader" p1))) k =
      match sget p1 k with Some v => Some v | None => match sget (base_list "VectorShapeDataLoader") k with Some v => Some v | None => sget [("nx", JInt 101); ("ny", JInt 101)] k end end).
    { rewrite two_dflt.
      rewrite sget_fold, sget_base. destruct (sget p1 k); reflexivity. }
    rewrite <- X. generalize (dflt "ny" (JInt 101) (dflt "nx" (JInt 101) (base_defaults "VectorShapeDataLoader" p1))). intros q. cbv zeta.
    assert (M : forall q', sget (sset q' "multiplier" (JInt 1)) k = sget q' k) by (intros q'; rewrite ParamProofs.sget_sset; destruct (String.eqb_spec k "multiplier"); [contradiction|reflexivity]).
    repeat match goal with |- context [if given ?p ?s then _ else _] => destruct (given p s) end; rewrite ?M; reflexivity. }
  split; [exists p1; split; [exact E|reflexivity]|]. split; [rewrite V, N1 by discriminate; reflexivity|]. split; [rewrite V, N2 by discriminate; reflexivity|].
  intros k K. cbn [In] in K. rewrite V, O by (intros ->; tauto). reflexivity.
Qed.
(** What the constructors read. *)
Record reads (p' : params) (col name agg : string) (min_dp : Z) : Prop := {
  re_name : exists o, attr_name p' = Ok o /\ match o with None => name = col | Some n => n = name /\ ~ In n ["lat"; "long"; "time"] end;
  re_agg : attr_text p' "aggregate_type" = Ok agg;
  re_agg' : sget p' "aggregate_type" = Some (JStr agg);
  re_min : attr_int p' "min_dp" = Ok min_dp;
  re_proj : exists s, attr_text p' "in_proj" = Ok s /\ attr_text p' "out_proj" = Ok s;
  re_factors : attr_factors p' = Ok (1, 1) }.
Lemma settled_reads p p' cls col name agg min_dp :
  (forall k, In k ["data_name"; "aggregate_type"; "in_proj"; "out_proj"; "downsample_factors"] -> sget p' k = match sget p k with Some v => Some v | None => sget (base_list cls) k end) ->
  sget p' "min_dp" = Some (JInt min_dp) -> names p col name -> text_or p "aggregate_type" "MEAN" agg ->
  (exists s, text_or p "in_proj" "EPSG:4326" s /\ text_or p "out_proj" "EPSG:4326" s) ->
  (sget p "downsample_factors" = None \/ sget p "downsample_factors" = Some (JArr [JInt 1; JInt 1])) -> reads p' col name agg min_dp.
Proof.
  intros B M Na Ag (s & P1 & P2) Fa.
  assert (TX : forall k d t, In k ["data_name"; "aggregate_type"; "in_proj"; "out_proj"; "downsample_factors"] -> text_or p k d t -> sget (base_list cls) k = Some (JStr d) -> sget p' k = Some (JStr t)).
  { intros k d t K X Y. rewrite (B k K). unfold text_or in X. destruct (sget p k); [subst; reflexivity|]. rewrite Y, X. reflexivity. }
  assert (AT : forall k t, sget p' k = Some (JStr t) -> attr_text p' k = Ok t) by (intros k t X; unfold attr_text, attr; rewrite X; reflexivity).
  constructor.
  - unfold attr_name, attr. rewrite B by (cbn; tauto). unfold names in Na. destruct (sget p "data_name") as [[]|]; cbn [sget String.eqb Ascii.eqb Bool.eqb bind base_list];
      try (destruct Na as [Na _]; discriminate); eexists; (split; [reflexivity|]); cbn beta iota; try assumption.
    destruct Na as [[= ->] X]. split; [reflexivity|exact X].
  - apply AT. eapply TX; [|exact Ag|reflexivity]. cbn. tauto.
  - eapply TX; [|exact Ag|reflexivity]. cbn. tauto.
  - unfold attr_int, attr. rewrite M. reflexivity.
  - exists s. split; apply AT; eapply TX; eauto; cbn; tauto.
  - unfold attr_factors, attr. rewrite B by (cbn; tauto). destruct Fa as [->| ->]; reflexivity.
Qed.

(** ** Data *)
Lemma longs_between e a b n l x : (a <= b)%Q -> linspace e a b n = Ok l -> In x l -> (a <= x <= b)%Q.
Proof.
  intros Hab E I. destruct (linspace_inv e a b n l E) as (N0 & Ln & Hv). apply (In_nth l x 0%Q) in I as (i & Hi & <-). rewrite Ln in Hi. rewrite (Hv i Hi). unfold lin.
  set (d := if e then n - 1 else n) in *.
  destruct (Z.eq_dec d 0) as [->|Dn]. { change (inject_Z 0) with 0%Q. unfold Qdiv. change (/ 0)%Q with 0%Q. nra. }
  assert (D0 : (0 < inject_Z d)%Q) by (change 0%Q with (inject_Z 0); rewrite <- Zlt_Qlt; unfold d in *; destruct e; lia).
  assert (I0 : (0 <= inject_Z (Z.of_nat i) <= inject_Z d)%Q).
  { split; [change 0%Q with (inject_Z 0)|]; rewrite <- Zle_Qle; [lia|]. unfold d in *. destruct e; lia. }
  assert (X : (inject_Z d * ((b - a) / inject_Z d) == b - a)%Q) by (field; lra).
  assert (Y : (0 <= (b - a) / inject_Z d)%Q) by (apply Qle_shift_div_l; lra). nra.
Qed.
(** A generated grid becomes a source: all its rows are there for the cells. *)
Lemma sorted_axis (l : list (Q * nat)) : StronglySorted (fun x y => (fst x <= fst y)%Q) l -> increasing l.
Proof.
  induction 1 as [|x l S IH F]; intros i j u w L A B; [destruct i; discriminate|]. destruct j as [|j]; [lia|]. cbn in B. destruct i as [|i]; cbn in A.
  - injection A as <-. rewrite Forall_forall in F. apply F. eapply nth_error_In, B.
  - apply (IH i j); [lia|assumption|assumption].
Qed.
Lemma grid_made b g : plain_region b -> has_dup (g_lat g) = false -> has_dup (g_long g) = false -> (forall x, In x (g_long g) -> (long_min b <= x <= long_max b)%Q) ->
  exists ds ds', to_xarray g = Ok ds /\ Permutation (xr_points ds) (grid_rows g) /\ construct_xr b ds = Ok ds' /\
    (forall p, In p (xr_points ds') -> In p (xr_points ds)) /\
    forall a pts, inside_region b a -> (selected (belongs a) (xr_points ds') pts <-> selected (belongs a) (xr_points ds) pts).
Proof.
  intros R D1 D2 L. destruct (to_xarray_ok g D1 D2) as (ds & E & P & T & S1 & S2).
  destruct (construct_xr_ok b ds R) as (ds' & Ec & H).
  - split; [apply sorted_axis, S1|]. split; [apply sorted_axis, S2|]. rewrite T. discriminate.
  - intros X. rewrite T in X. contradiction.
  - intros p I _. apply (Permutation_in _ P) in I. apply grid_rows_in in I as (i & j & _ & Hj & I). 
    assert (X : In (p_long p) (g_long g)) by (rewrite I; cbn [p_long]; apply nth_In, Hj).
    specialize (L _ X). destruct R as (R1 & R2 & R3 & _). lra.
  - exists ds, ds'. split; [exact E|]. split; [exact P|]. split; [exact Ec|]. destruct H as [[_ S]|[_ ->]].
    + split; [intros p I; apply (selected_In _ _ _ p S) in I; apply I|]. intros a pts Ia. apply (selected_within_iff b); assumption.
    + split; [auto|]. intros a pts _. reflexivity.
Qed.

(** ** Scalar shapes *)
Lemma number_read p p' k z q : number_or p k (inject_Z z) q -> sget p' k = match sget p k with Some v => Some v | None => Some (JInt z) end -> attr_number p' k = Ok q.
Proof.
  intros N E. unfold attr_number, attr. rewrite E. unfold number_or in N. destruct (sget p k) as [j|]; [inversion N; reflexivity|]. subst q. reflexivity.
Qed.
Lemma number_given p p' k q : number_at p k q -> sget p' k = sget p k -> attr_number p' k = Ok q.
Proof. intros (j & E & N) E'. unfold attr_number, attr. rewrite E', E. inversion N; reflexivity. Qed.
Lemma whole_read p p' k z n : whole_or p k z n -> sget p' k = match sget p k with Some v => Some v | None => Some (JInt z) end -> attr_int p' k = Ok n.
Proof. intros N E. unfold attr_int, attr. rewrite E. unfold whole_or in N. destruct (sget p k) as [j|]; [subst j|subst n]; reflexivity. Qed.
Lemma centre_read p' y x cy cx : sget p' "centre" = Some (JArr [y; x]) -> coordinate y cy -> coordinate x cx -> attr_centre p' = Ok (cy, cx).
Proof.
  intros E Y X. unfold attr_centre, attr. rewrite E. cbn [bind].
  assert (C : forall j c, coordinate j c -> (match j with JNull => Ok None | _ => q <- a_number j ;; Ok (Some q) end) = Ok c).
  { intros j [q|]; cbn [coordinate]; [intros []; reflexivity|intros ->; reflexivity]. }
  rewrite (C y cy Y). cbn [bind]. rewrite (C x cx X). reflexivity.
Qed.
Lemma centre_or_read p p' cy cx : centre_or p cy cx -> sget p' "centre" = match sget p "centre" with Some v => Some v | None => Some no_centre end -> attr_centre p' = Ok (cy, cx).
Proof.
  intros C E. unfold centre_or in C. destruct (sget p "centre") as [v|].
  - destruct C as (y & x & -> & Y & X). exact (centre_read p' y x cy cx E Y X).
  - destruct C as (-> & ->). apply (centre_read p' JNull JNull None None E); reflexivity.
Qed.
Lemma over_again axis b nx ny right d g : over_region axis b nx ny right d -> axis (lat_min b) (lat_max b) ny (g_lat g) -> axis (long_min b) (long_max b) nx (g_long g) -> right (grid_rows g) ->
  forall d', Permutation d' (grid_rows g) -> over_region axis b nx ny right d'.
Proof. intros _ A1 A2 R d' P. exists (g_lat g), (g_long g), (grid_rows g). split; [exact A1|]. split; [exact A2|]. split; [apply grid_rows_spec|]. auto. Qed.
Definition shape_read (p p' : params) (name : string) : Prop :=
  forall k, ~ In k ["dataloader_name"; "min_dp"] -> sget p' k =
      match sget p k with Some v => Some v | None => match sget (base_list "ShapeDataLoader") k with Some v => Some v | None => sget (extras name) k end end.
Lemma shape_made b p p' nx ny name d : plain_region b -> shape_rows b p nx ny name d -> resolution p nx ny -> shape_read p p' name ->
  exists generate s g e, shape_generator name = Ok generate /\ read_shape p' name = Ok s /\ generate s b = Ok g /\
    linspace e (lat_min b) (lat_max b) ny = Ok (g_lat g) /\ linspace e (long_min b) (long_max b) nx = Ok (g_long g) /\
    forall d', Permutation d' (grid_rows g) -> shape_rows b p nx ny name d'.
Proof.
  intros R S (Wx & Wy & Nx & Ny) V. destruct R as (_ & R2 & _ & R4 & _).
  assert (Dl : ~ (lat_min b == lat_max b)%Q) by lra. assert (Do : ~ (long_min b == long_max b)%Q) by lra.
  assert (Ax : attr_int p' "nx" = Ok nx). { eapply whole_read; [exact Wx|]. rewrite V by (cbn; intuition discriminate). reflexivity. }
  assert (Ay : attr_int p' "ny" = Ok ny). { eapply whole_read; [exact Wy|]. rewrite V by (cbn; intuition discriminate). reflexivity. }
  assert (Am : forall m, number_or p "multiplier" 1 m -> attr_number p' "multiplier" = Ok m). { intros m H. apply (number_read p p' _ 1 m H). rewrite V by (cbn; intuition discriminate). reflexivity. }
  destruct S as [m r cy cx d Hm Hr Hc Gy Gx O|m w h cy cx d Hm Hw Hh Hc Gy Gx O|m up d Hm Hu O|w h d Hm Hs W0 H0 O].
  - assert (Ar : attr_number p' "radius" = Ok r). { apply (number_read p p' _ 1 r Hr). rewrite V by (cbn; intuition discriminate). reflexivity. }
    assert (Ac : attr_centre p' = Ok (cy, cx)). { apply (centre_or_read p p' cy cx Hc). rewrite V by (cbn; intuition discriminate). reflexivity. }
    set (s := mkShape nx ny [m] (cy, cx) r 0 0 false (0, 0)%Q).
    destruct (circle s b) as (g & G & F & L1 & L2); try (cbn; lia); try assumption.
    exists gen_circle, s, g, true. split; [reflexivity|]. split.
    { unfold read_shape. rewrite Ax, Ay. cbn [bind String.eqb Ascii.eqb Bool.eqb]. rewrite (Am m Hm). cbn [bind]. unfold read_circle. rewrite Ac, Ar. reflexivity. }
    split; [exact G|]. split; [exact L1|]. split; [exact L2|]. intros d' P. eapply (sr_circle b p nx ny m r cy cx); try assumption.
    eapply over_again; [exact O|apply linspace_axis; [lia|exact L1]|apply linspace_axis; [lia|exact L2]|exact F|exact P].
  - assert (Aw : attr_number p' "width" = Ok w). { apply (number_read p p' _ 1 w Hw). rewrite V by (cbn; intuition discriminate). reflexivity. }
    assert (Ah : attr_number p' "height" = Ok h). { apply (number_given p p' _ h Hh). rewrite V by (cbn; intuition discriminate). destruct (sget p "height"); reflexivity. }
    assert (Ac : attr_centre p' = Ok (cy, cx)). { apply (centre_or_read p p' cy cx Hc). rewrite V by (cbn; intuition discriminate). reflexivity. }
    set (s := mkShape nx ny [m] (cy, cx) 0 w h false (0, 0)%Q).
    destruct (rectangle s b) as (g & G & F & L1 & L2); try (cbn; lia); try assumption.
    exists gen_rectangle, s, g, true. split; [reflexivity|]. split.
    { unfold read_shape. rewrite Ax, Ay. cbn [bind String.eqb Ascii.eqb Bool.eqb]. rewrite (Am m Hm). cbn [bind]. unfold read_rectangle. rewrite Ac, Aw, Ah. reflexivity. }
    split; [exact G|]. split; [exact L1|]. split; [exact L2|]. intros d' P. eapply (sr_rectangle b p nx ny m w h cy cx); try assumption.
    eapply over_again; [exact O|apply linspace_axis; [lia|exact L1]|apply linspace_axis; [lia|exact L2]|exact F|exact P].
  - assert (Au : attr p' "vertical" = Ok (JBool up)).
    { unfold attr. rewrite V by (cbn; intuition discriminate). unfold flag_or in Hu. destruct (sget p "vertical"); subst; reflexivity. }
    set (s := mkShape nx ny [m] (None, None) 0 0 0 up (0, 0)%Q).
    destruct (gradient s b) as (g & G & F & L1 & L2); try (cbn; lia); try (cbn; destruct up; assumption).
    exists gen_gradient, s, g, true. split; [reflexivity|]. split.
    { unfold read_shape. rewrite Ax, Ay. cbn [bind String.eqb Ascii.eqb Bool.eqb]. rewrite (Am m Hm). cbn [bind]. unfold read_gradient. rewrite Au. destruct up; reflexivity. }
    split; [exact G|]. split; [exact L1|]. split; [exact L2|]. intros d' P. eapply (sr_gradient b p nx ny m up); try assumption.
    eapply over_again; [exact O|apply linspace_axis; [lia|exact L1]|apply linspace_axis; [lia|exact L2]|exact F|exact P].
  - assert (Ag : attr_grid p' = Ok (w, h)).
    { unfold attr_grid, attr. rewrite V by (cbn; intuition discriminate). unfold squares_or in Hs. destruct (sget p "gridsize").
      - destruct Hs as (x & y & -> & X & Y). cbn [bind]. inversion X; inversion Y; reflexivity.
      - destruct Hs as (-> & ->). reflexivity. }
    set (s := mkShape nx ny [] (None, None) 0 0 0 false (w, h)).
    destruct (checkerboard s b) as (g & G & F & L1 & L2); try (cbn; lia); try assumption.
    exists gen_checkerboard, s, g, false. split; [reflexivity|]. split.
    { unfold read_shape. rewrite Ax, Ay. cbn [bind String.eqb Ascii.eqb Bool.eqb]. unfold read_checkerboard. rewrite Ag. reflexivity. }
    split; [exact G|]. split; [exact L1|]. split; [exact L2|]. intros d' P. eapply (sr_checkerboard b p nx ny w h); try assumption.
    eapply over_again; [exact O|apply linspace_below; [lia|exact L1]|apply linspace_below; [lia|exact L2]|exact F|exact P].
Qed.
Lemma named_scalar o col name ds : ~ In col ["lat"; "long"; "time"] -> match o with None => name = col | Some n => n = name /\ ~ In n ["lat"; "long"; "time"] end ->
  name_source_xr o [col] ds = Ok name.
Proof.
  intros Nc H. unfold name_source_xr, set_name_xr, get_name_xr. cbn [map fst only_name bind]. destruct o as [n|]; [|rewrite H; reflexivity]. destruct H as (-> & Nn).
  unfold rename_xr. cbn [forallb fst sget map].
  assert (I1 : existsb (String.eqb col) (coords_of ds ++ [col])%list = true) by (rewrite existsb_app; cbn [existsb]; rewrite String.eqb_refl, orb_true_r; reflexivity).
  rewrite I1. cbn [andb negb].
  assert (C : forall c, In c (coords_of ds) -> In c ["lat"; "long"; "time"]) by (intros c; unfold coords_of; destruct (x_time ds); cbn; tauto).
  assert (I2 : repeats (map (fun n => match (if String.eqb n col then Some name else None) with Some m => m | None => n end) (coords_of ds ++ [col])%list) = false).
  { rewrite map_app. cbn [map]. rewrite String.eqb_refl.
    assert (I3 : map (fun n => match (if String.eqb n col then Some name else None) with Some m => m | None => n end) (coords_of ds) = coords_of ds).
    { rewrite <- (map_id (coords_of ds)) at 2. apply map_ext_in. intros c Ic. destruct (String.eqb_spec c col) as [->|]; [exfalso; apply Nc, C, Ic|reflexivity]. }
    rewrite I3. unfold coords_of. cbn in Nn. destruct (x_time ds); cbn [app repeats existsb];
      repeat match goal with |- context [String.eqb ?a name] => destruct (String.eqb_spec a name); [exfalso; apply Nn; auto|] end; reflexivity. }
  rewrite I2. reflexivity.
Qed.
Lemma shape_supplied glob sq proj construct b min_dp k src f : plain_region b ->
  (forall p, construct k "ShapeDataLoader" p b = construct_shape sq proj k p b) -> shape_feed b min_dp src f ->
  exists f' g, supplies glob construct sq b min_dp k src f' /\ agree b f' g /\ shape_feed b min_dp src g /\ f_name g = f_name f.
Proof.
  intros R Hc (name & nx & ny & Sn & St & Un & Re & Sr & X).
  assert (Kn : In name ["circle"; "rectangle"; "gradient"; "checkerboard"]) by (destruct Sr; cbn; tauto).
  destruct (shape_given glob src min_dp name Sn Kn Un) as (p' & (p1 & E1 & E2) & Nm & Mi & V).
  { intros ->. inversion Sr as [|m w h cy cx d Hm Hw Hh Hce Gy Gx O| |]; subst. destruct Hh as (j & -> & _). discriminate. }
  assert (Rd : reads p' "dummy_data" (f_name f) (f_agg f) min_dp).
  { destruct St. eapply (settled_reads (snd src) p' "ShapeDataLoader"); try eassumption. intros q I. cbn [In] in I. repeat (destruct I as [<-|I]; [rewrite V by (cbn; intuition discriminate); destruct (sget (snd src) _); reflexivity|]). destruct I. }
  destruct (shape_made b (snd src) p' nx ny name (f_data f) R Sr Re V) as (generate & s & g & e & Eg & Es & G & L1 & L2 & Again).
  assert (Rb := R). destruct Rb as (_ & R2 & _ & R4 & _).
  destruct (grid_made b g R) as (ds & ds' & Ex & Pm & Ec & Sub & Sel).
  { eapply linspace_no_dup; [|exact L1]. lra. } { eapply linspace_no_dup; [|exact L2]. lra. } { intros x I. eapply longs_between; [|exact L2|exact I]. lra. }
  exists (mkFeed (f_name f) (f_xr f) (f_agg f) (f_min f) (f_conds f) (f_fill f) (xr_points ds')), (mkFeed (f_name f) (f_xr f) (f_agg f) (f_min f) (f_conds f) (f_fill f) (xr_points ds)).
  assert (Stt := St). destruct St. destruct Rd as [(o & Rn & Rn') Ra Ra' Rm (t & Ri & Ro) Rfa]. split; [|split; [|split; [|reflexivity]]].
  - cbn [f_name f_xr f_agg f_min f_conds f_fill f_data].
    split; [|split; [exact st_known|split; [exact st_min|split; [exact st_conds|exact st_fill]]]].
    exists "ShapeDataLoader", p1, p'. split; [exact E1|]. split; [exact E2|]. split; [|split; [exact Ra'|cbn; intuition discriminate]].
    cbn [f_data]. rewrite Hc. unfold construct_shape. unfold attr_text at 1, attr. rewrite Nm. cbn [bind]. rewrite Eg. cbn [bind]. rewrite Es. cbn [bind]. unfold import_shape. rewrite G. cbn [bind]. rewrite Ex. cbn [bind].
    unfold construct_dataset. rewrite Rfa. cbn [bind]. rewrite Ra. cbn [bind]. rewrite Rm. cbn [bind fst snd].
    unfold downsample. cbn [fst snd Z.eqb Pos.eqb andb bind]. rewrite Ri. cbn [bind]. rewrite Ro. cbn [bind]. rewrite Rn. cbn [bind]. rewrite String.eqb_refl.
    rewrite (named_scalar o "dummy_data" (f_name f) ds) by (try exact Rn'; cbn; intuition discriminate). cbn [bind]. rewrite Ec. cbn [bind].
    unfold feed_loader. cbn [f_xr f_name f_agg f_min]. rewrite X, st_min. reflexivity.
  - repeat split; auto; intros; cbn [f_data] in *; apply Sel; assumption.
  - exists name, nx, ny. split; [exact Sn|]. split; [constructor; assumption|]. split; [exact Un|]. split; [exact Re|]. split; [apply Again; exact Pm|exact X].
Qed.

(** ** Vector shapes *)
Definition vector_shape_read (p p' : params) : Prop :=
  forall k, ~ In k ["dataloader_name"; "min_dp"; "multiplier"] -> sget p' k =
      match sget p k with Some v => Some v | None => match sget (base_list "VectorShapeDataLoader") k with Some v => Some v | None => sget [("nx", JInt 101); ("ny", JInt 101)] k end end.
Lemma circle_width s b g i j : gen_circle s b = Ok g -> List.length (g_val g i j) = List.length (s_mult s).
Proof. unfold gen_circle. intros E. repeat (match type of E with bind ?m _ = _ => destruct m; [cbn [bind] in E|discriminate] end). destruct (s_ny s =? 0); [discriminate|]. injection E as <-. cbn [g_val]. apply map_length. Qed.
Lemma rectangle_width s b g i j : gen_rectangle s b = Ok g -> List.length (g_val g i j) = List.length (s_mult s).
Proof. unfold gen_rectangle. intros E. repeat (match type of E with bind ?m _ = _ => destruct m; [cbn [bind] in E|discriminate] end). destruct (s_ny s =? 0); [discriminate|]. injection E as <-. cbn [g_val]. apply map_length. Qed.
Lemma gradient_width s b g i j : List.length (s_mult s) = 2%nat -> gen_vector_gradient s b = Ok g -> List.length (g_val g i j) = 2%nat.
Proof.
  unfold gen_vector_gradient. intros L E. repeat (match type of E with bind ?m _ = _ => destruct m; [cbn [bind] in E|discriminate] end). injection E as <-. cbn [g_val]. cbv zeta.
  rewrite map_length, combine_length, L. destruct (s_vertical s); reflexivity.
Qed.
Lemma vector_shape_made b p p' nx ny mu mv name d : plain_region b -> vector_shape_rows b p nx ny mu mv name d -> resolution p nx ny -> number_at p "multiplier_u" mu -> number_at p "multiplier_v" mv ->
  vector_shape_read p p' ->
  exists generate s g, vector_shape_generator name = Ok generate /\ read_vector_shape p' name = Ok s /\ generate s b = Ok g /\
    linspace true (lat_min b) (lat_max b) ny = Ok (g_lat g) /\ linspace true (long_min b) (long_max b) nx = Ok (g_long g) /\
    (forall i j, List.length (g_val g i j) = 2%nat) /\
    forall d', Permutation d' (grid_rows g) -> vector_shape_rows b p nx ny mu mv name d'.
Proof.
  intros R S (Wx & Wy & Nx & Ny) Mu Mv V. destruct R as (_ & R2 & _ & R4 & _).
  assert (Dl : ~ (lat_min b == lat_max b)%Q) by lra. assert (Do : ~ (long_min b == long_max b)%Q) by lra.
  assert (Ax : attr_int p' "nx" = Ok nx). { eapply whole_read; [exact Wx|]. rewrite V by (cbn; intuition discriminate). reflexivity. }
  assert (Ay : attr_int p' "ny" = Ok ny). { eapply whole_read; [exact Wy|]. rewrite V by (cbn; intuition discriminate). reflexivity. }
  assert (An : forall k q, number_at p k q -> ~ In k ["dataloader_name"; "min_dp"; "multiplier"] -> sget [("nx", JInt 101); ("ny", JInt 101)] k = None -> sget (base_list "VectorShapeDataLoader") k = None -> attr_number p' k = Ok q).
  { intros k q H N N1 N2. apply (number_given p p' _ q H). rewrite V, N1, N2 by exact N. destruct (sget p k); reflexivity. }
  assert (Au' : attr_number p' "multiplier_u" = Ok mu) by (apply An; try reflexivity; [exact Mu|cbn; intuition discriminate]).
  assert (Av' : attr_number p' "multiplier_v" = Ok mv) by (apply An; try reflexivity; [exact Mv|cbn; intuition discriminate]).
  assert (Ac : forall cy cx, given_centre p cy cx -> attr_centre p' = Ok (cy, cx)).
  { intros cy cx (y & x & E & Y & X). apply (centre_read p' y x); try assumption. rewrite V by (cbn; intuition discriminate). rewrite E. reflexivity. }
  destruct S as [r cy cx d Hr Hc Gy Gx O|w h cy cx d Hw Hh Hc Gy Gx O|up d Hu O].
  - assert (Ar : attr_number p' "radius" = Ok r) by (apply An; try reflexivity; [exact Hr|cbn; intuition discriminate]).
    set (s := mkShape nx ny [mu; mv] (cy, cx) r 0 0 false (0, 0)%Q).
    destruct (circle s b) as (g & G & F & L1 & L2); try (cbn; lia); try assumption.
    exists gen_circle, s, g. split; [reflexivity|]. split.
    { unfold read_vector_shape. rewrite Ax, Ay, Au', Av'. cbn [bind String.eqb Ascii.eqb Bool.eqb]. unfold read_circle. rewrite (Ac _ _ Hc), Ar. reflexivity. }
    split; [exact G|]. split; [exact L1|]. split; [exact L2|]. split; [intros i j; apply (circle_width s b g i j G)|]. intros d' P. eapply (vr_circle b p nx ny mu mv r cy cx); try assumption.
    eapply over_again; [exact O|apply linspace_axis; [lia|exact L1]|apply linspace_axis; [lia|exact L2]|exact F|exact P].
  - assert (Aw : attr_number p' "width" = Ok w) by (apply An; try reflexivity; [exact Hw|cbn; intuition discriminate]).
    assert (Ah : attr_number p' "height" = Ok h) by (apply An; try reflexivity; [exact Hh|cbn; intuition discriminate]).
    set (s := mkShape nx ny [mu; mv] (cy, cx) 0 w h false (0, 0)%Q).
    destruct (rectangle s b) as (g & G & F & L1 & L2); try (cbn; lia); try assumption.
    exists gen_rectangle, s, g. split; [reflexivity|]. split.
    { unfold read_vector_shape. rewrite Ax, Ay, Au', Av'. cbn [bind String.eqb Ascii.eqb Bool.eqb]. unfold read_rectangle. rewrite (Ac _ _ Hc), Aw, Ah. reflexivity. }
    split; [exact G|]. split; [exact L1|]. split; [exact L2|]. split; [intros i j; apply (rectangle_width s b g i j G)|]. intros d' P. eapply (vr_rectangle b p nx ny mu mv w h cy cx); try assumption.
    eapply over_again; [exact O|apply linspace_axis; [lia|exact L1]|apply linspace_axis; [lia|exact L2]|exact F|exact P].
  - assert (At : attr p' "vertical" = Ok (JBool up)) by (unfold attr; rewrite V by (cbn; intuition discriminate); rewrite Hu; reflexivity).
    set (s := mkShape nx ny [mu; mv] (None, None) 0 0 0 up (0, 0)%Q).
    destruct (vector_gradient s b mu mv) as (g & G & F & L1 & L2); try (cbn; lia); try (cbn; destruct up; assumption); [reflexivity|].
    exists gen_vector_gradient, s, g. split; [reflexivity|]. split.
    { unfold read_vector_shape. rewrite Ax, Ay, Au', Av'. cbn [bind String.eqb Ascii.eqb Bool.eqb]. unfold read_gradient. rewrite At. destruct up; reflexivity. }
    split; [exact G|]. split; [exact L1|]. split; [exact L2|]. split; [intros i j; apply (gradient_width s b g i j eq_refl G)|]. intros d' P. eapply (vr_gradient b p nx ny mu mv up); try assumption.
    eapply over_again; [exact O|apply linspace_axis; [lia|exact L1]|apply linspace_axis; [lia|exact L2]|exact F|exact P].
Qed.
Lemma vector_shape_supplied glob sq construct b min_dp k src v : plain_region b -> fit_names (v_names v) ->
  (forall p, construct k "VectorShapeDataLoader" p b = construct_vector_shape sq k p b) -> vector_shape_feed b min_dp src v ->
  exists v' w, provides glob construct sq b min_dp k src (Vector v') /\ vagree b v' w /\ vector_shape_feed b min_dp src w /\ v_names w = v_names v.
Proof.
  intros R Fn Hc (name & nx & ny & mu & mv & Sn & St & Un & Re & Hu & Hv & Sr & X & Cn).
  assert (Kn : In name vector_shapes) by (destruct Sr; cbn; tauto).
  destruct (vector_shape_given glob src min_dp name Sn Kn Un) as (p' & (p1 & E1 & E2) & Nm & Mi & V).
  destruct (settled_cols _ _ _ _ St) as (Pc & Cc). pose proof (given_names _ _ _ _ St) as Gn. destruct (vs_two _ _ _ _ St) as (L1' & L2').
  assert (Rd : reads p' "dummy_data_u,dummy_data_v" (String.concat "," (v_names v)) (v_agg v) min_dp).
  { destruct St. eapply (settled_reads (snd src) p' "VectorShapeDataLoader"); try eassumption.
    - intros q I. cbn [In] in I. repeat (destruct I as [<-|I]; [rewrite V by (cbn; intuition discriminate); destruct (sget (snd src) _); reflexivity|]). destruct I.
    - unfold vector_names in vs_name. unfold names. destruct (sget (snd src) "data_name") as [[]|]; try (rewrite vs_name; reflexivity);
      (destruct vs_name as [Na _]; split; [exact Na|]; destruct (two_names _ L2') as (a & c & ->); intros I; cbn [String.concat] in I;
       do 5 (try destruct a as [|? a]); cbn in I; intuition discriminate). }
  destruct (vector_shape_made b (snd src) p' nx ny mu mv name (v_data v) R Sr Re Hu Hv V) as (generate & s & g & Eg & Es & G & L1 & L2 & Wd & Again).
  assert (Rb := R). destruct Rb as (_ & R2 & _ & R4 & _).
  destruct (grid_made b g R) as (ds & ds' & Ex & Pm & Ec & Sub & Sel).
  { eapply linspace_no_dup; [|exact L1]. lra. } { eapply linspace_no_dup; [|exact L2]. lra. } { intros x I. eapply longs_between; [|exact L2|exact I]. lra. }
  exists (mkVFeed (v_names v) (v_xr v) (v_agg v) (v_min v) (v_conds v) (xr_points ds')), (mkVFeed (v_names v) (v_xr v) (v_agg v) (v_min v) (v_conds v) (xr_points ds)).
  assert (Stt := St). destruct St. destruct Rd as [(o & Rn & Rn') Ra Ra' Rm (t & Ri & Ro) Rfa]. split; [|split; [|split; [|reflexivity]]].
  - cbn [provides v_names v_xr v_agg v_min v_conds v_data].
    split; [|split; [exact vs_known|split; [exact vs_min|split; [intros _; exact Cn|split; [|split; [exact vs_conds|exact vs_fill]]]]]].
    + exists "VectorShapeDataLoader", p1, p'. split; [exact E1|]. split; [exact E2|]. split; [|split; [exact Ra'|cbn; intuition discriminate]].
      rewrite Hc. unfold construct_vector_shape. unfold attr_text at 1, attr. rewrite Nm. cbn [bind]. rewrite Eg. cbn [bind]. rewrite Es. cbn [bind]. unfold import_shape. rewrite G. cbn [bind]. rewrite Ex. cbn [bind].
      unfold construct_vector_dataset. rewrite Rfa. cbn [bind]. rewrite Ra. cbn [bind]. rewrite Rm. cbn [bind fst snd].
      unfold downsample. cbn [fst snd Z.eqb Pos.eqb andb bind]. rewrite Ri. cbn [bind]. rewrite Ro. cbn [bind]. rewrite Rn. cbn [bind]. rewrite String.eqb_refl.
      rewrite (named_grid o ["dummy_data_u"; "dummy_data_v"] v ds Pc Cc L1' L2' Fn Gn Rn'). cbn [bind]. rewrite (names_two _ L2'). cbn [bind]. rewrite Ec. cbn [bind].
      unfold vfeed_loader. cbn [v_xr v_names v_agg]. rewrite X. reflexivity.
    + intros p I. rewrite L2'. apply Sub in I. apply (Permutation_in _ Pm) in I. apply grid_rows_in in I as (i & j & _ & _ & ->). apply Wd.
  - unfold vagree. cbn [v_names v_xr v_agg v_min v_conds v_data]. repeat (split; [reflexivity|]). intros a pts Ia. apply Sel; assumption.
  - exists name, nx, ny, mu, mv. split; [exact Sn|]. split; [constructor; assumption|]. repeat (split; [assumption|]). split; [apply Again; exact Pm|]. split; [exact X|exact Cn].
Qed.
