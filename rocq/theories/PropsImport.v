(** Property theorem C69: imported data.  Statements only. *)
From Coq Require Import Permutation Sorting.Sorted.
From Verif Require Import Base QLib Geo Graph Cell Loaders Builder Spec MeshSpec DataSpec TrimProofs XrProofs ConstructSpec ConstructProofs
  Config ConfigSpec Params ParamSpec ParamProofs Shapes Downsample Import ImportSpec ImportProofs.
Open Scope Q_scope.

(** C69.  ERA5 files have decreasing latitudes; longitudes may be in any order and any
    range.  [f] is the variable, or its calculation. *)
Theorem C69_era5_partial : forall f b ds, plain_region b -> decreasing (x_lat ds) -> dated b ds ->
  exists ds', import_era5 f b ds = Ok ds' /\ imported f b (xr_points ds) (xr_points ds').
Proof. exact era5_ok. Qed.
Print Assumptions C69_era5_partial.
(** The magnitude of winds: the root ([sqrt] is any function) of the sum of squares; unknown
    where a component is. *)
Theorem C69_wind_mag_partial : forall sqrt b ds, plain_region b -> decreasing (x_lat ds) -> dated b ds ->
  exists ds', import_era5 (wind_mag sqrt) b ds = Ok ds' /\ forall q, In q (xr_points ds') -> exists p, In p (xr_points ds) /\ p_lat q = p_lat p /\ p_time q = p_time p /\
    (forall u v, p_vals p = [Some u; Some v] -> p_vals q = [Some (sqrt (u * u + v * v))]) /\
    (In None (p_vals p) -> p_vals q = [None]).
Proof.
  intros sqrt b ds R D T. destruct (era5_ok (wind_mag sqrt) b ds R D T) as (ds' & E & I). exists ds'. split; [exact E|]. intros q Iq.
  destruct (imported_origin _ _ _ _ I q Iq) as (p & Ip & La & Ti & V). exists p. split; [exact Ip|]. split; [exact La|]. split; [exact Ti|]. rewrite V. split.
  - intros u v ->. reflexivity.
  - intros N. destruct (p_vals p) as [|[x|] [|[y|] [|z l]]]; try reflexivity. destruct N as [N|[N|[]]]; discriminate.
Qed.
Print Assumptions C69_wind_mag_partial.
(** Depth becomes elevation. *)
Theorem C69_bsose_depth_partial : forall b ds, plain_region b -> increasing (x_lat ds) -> dated b ds ->
  exists ds', import_bsose_depth b ds = Ok ds' /\ imported (map (option_map (fun x => -1 * x))) b (xr_points ds) (xr_points ds').
Proof. intros b ds. exact (bsose_ok negated b ds). Qed.
Print Assumptions C69_bsose_depth_partial.
(** Ice fractions become percentages unless fractions are asked for; other units are
    rejected. *)
Theorem C69_bsose_ice_partial : forall units b ds, plain_region b -> increasing (x_lat ds) -> dated b ds ->
  (units = None \/ units = Some "percentage"%string ->
     exists ds', import_bsose_ice units b ds = Ok ds' /\ imported (map (option_map (fun x => x * 100))) b (xr_points ds) (xr_points ds')) /\
  (units = Some "fraction"%string -> exists ds', import_bsose_ice units b ds = Ok ds' /\ imported (fun l => l) b (xr_points ds) (xr_points ds')) /\
  (forall u, units = Some u -> u <> "percentage"%string -> u <> "fraction"%string -> import_bsose_ice units b ds = Err ValueError).
Proof.
  intros units b ds R D T. unfold import_bsose_ice. set (g := sortby_long (assign_long ds)).
  destruct (trim_ok b g R D (sorted_increasing (assign_long ds)) T) as (tr & E & P & S). rewrite E. cbn [bind].
  destruct (bsose_ok percent b ds R D T) as (dp & Ep & Ip). fold g in Ep. rewrite (trim_vals percent b g tr E) in Ep. injection Ep as <-.
  destruct (bsose_ok (fun l => l) b ds R D T) as (df & Ef & If). fold g in Ef. rewrite (trim_vals (fun l => l) b g tr E) in Ef. injection Ef as <-.
  split; [|split].
  - intros [->| ->]; exists (map_vals percent tr); split; auto.
  - intros ->. exists tr. split; [reflexivity|]. exact If.
  - intros u -> A B. apply String.eqb_neq in A, B. rewrite A, B. reflexivity.
Qed.
Print Assumptions C69_bsose_ice_partial.
(** The sources without conversion: the points of the region, as they are. *)
Theorem C69_plain : forall b ds, plain_region b -> increasing (x_lat ds) -> increasing (x_long ds) -> dated b ds ->
  exists ds', import_plain b ds = Ok ds' /\ selected (belongs b) (xr_points ds) (xr_points ds').
Proof. intros b ds R A B T. destruct (trim_ok b ds R A B T) as (ds' & E & P & S). exists ds'. split; [exact E|]. rewrite P. apply S. Qed.
Print Assumptions C69_plain.
Theorem C69_reversed_partial : forall b ds, plain_region b -> decreasing (x_lat ds) -> increasing (x_long ds) -> dated b ds ->
  exists ds' sel, import_reversed b ds = Ok ds' /\ selected (belongs b) (xr_points ds) sel /\ Permutation (xr_points ds') sel.
Proof.
  intros b ds R D B T. unfold import_reversed, reverse_lat. rewrite (decreasing_dup _ D). cbn [bind]. set (g := mkXr _ _ _ _).
  destruct (trim_ok b g R (decreasing_rev _ D) B T) as (ds' & E & P & S). exists ds', (xr_trim_rows b (xr_points ds)). split; [exact E|]. split; [apply S|].
  rewrite P. apply filter_perm. apply (points_perm ds (rev (x_lat ds)) (x_long ds)); [apply Permutation_sym, Permutation_rev|reflexivity].
Qed.
Print Assumptions C69_reversed_partial.
Theorem C69_csv : forall b files, plain_region b -> files <> [] -> exists d, import_csv b files = Ok d /\ selected (belongs b) (List.concat files) d.
Proof.
  intros b files (_ & L & _ & _ & T) N. unfold import_csv. destruct files as [|f l]; [contradiction|]. eexists. split; [reflexivity|]. apply df_trim_selects; auto.
Qed.
Print Assumptions C69_csv.
Theorem C69_csv_none : forall b, import_csv b [] = Err ValueError.
Proof. reflexivity. Qed.
Print Assumptions C69_csv_none.
(** SOSE: longitudes from 0 to 360; times are dropped. *)
Theorem C69_sose : forall b file, plain_region b -> (forall p, In p file -> -180 <= p_long p <= 360) ->
  exists all, Forall2 (fun p q => p_lat q = p_lat p /\ p_time q = None /\ p_vals q = p_vals p /\ -180 <= p_long q <= 180 /\ (p_long q == p_long p \/ p_long q == p_long p - 360)) file all /\
    selected (belongs b) all (import_sose b file).
Proof.
  intros b file (_ & L & _ & _ & T) H. exists (map (fun p => mkP (p_lat p) (sose_long (p_long p)) None (p_vals p)) file). split; [|apply df_trim_selects; auto].
  induction file as [|p l IH]; constructor; [|apply IH; intros q I; apply H; right; exact I]. cbn. specialize (H p (or_introl eq_refl)). unfold sose_long.
  destruct (qltb_spec 180 (p_long p)).
  - split; [reflexivity|]. split; [reflexivity|]. split; [reflexivity|]. split; [lra|right; reflexivity].
  - split; [reflexivity|]. split; [reflexivity|]. split; [reflexivity|]. split; [lra|left; reflexivity].
Qed.
Print Assumptions C69_sose.
(** Baltic currents: at every place the mean over the period of the known values of each
    component. *)
Theorem C69_baltic_current : forall b ds, plain_region b -> strictly (x_lat ds) -> strictly (x_long ds) -> dated b ds -> x_time ds <> None ->
  exists ds' sel, import_baltic_current b ds = Ok ds' /\ selected (belongs b) (xr_points ds) sel /\
    (forall r, In r sel -> exists p, In p (xr_points ds') /\ same_place p r) /\
    (forall p, In p (xr_points ds') -> p_time p = None /\ List.length (p_vals p) = 2%nat /\
       forall v rows, (v < 2)%nat -> selected (same_place p) sel rows -> mean_known (map (fun r => nth v (p_vals r) None) rows) (nth v (p_vals p) None)).
Proof.
  intros b ds R A B T N. destruct (trim_ok b ds R (strictly_increasing _ A) (strictly_increasing _ B) T) as (tr & E & P & S).
  destruct R as (_ & L & _). destruct (trim_shape b ds tr L E) as ((f & F) & (g & G) & Nt). specialize (Nt N). destruct (x_time tr) as [ts|] eqn:Tt; [|contradiction].
  assert (A' : StronglySorted (fun x y : Q * nat => fst x < fst y) (x_lat tr)) by (rewrite F; apply sorted_filter, strictly_sorted, A).
  assert (B' : StronglySorted (fun x y : Q * nat => fst x < fst y) (x_long tr)) by (rewrite G; apply sorted_filter, strictly_sorted, B).
  unfold import_baltic_current. rewrite E. cbn [bind]. unfold time_mean. rewrite Tt. eexists. exists (xr_points tr). split; [reflexivity|].
  split; [rewrite P; apply S|]. split.
  - intros r I. unfold xr_points in I. rewrite Tt in I. apply in_flat_map in I as (la & Ia & I). apply in_flat_map in I as (lo & Io & I). apply in_map_iff in I as (t & <- & It).
    eexists. split; [unfold xr_points; cbn [x_lat x_long x_time x_val]; apply in_flat_map; exists la; split; [exact Ia|]; apply in_flat_map; exists lo; split; [exact Io|]; left; reflexivity|].
    split; cbn; reflexivity.
  - intros p I. unfold xr_points in I. cbn [x_lat x_long x_time x_val] in I. apply in_flat_map in I as (la & Ia & I). apply in_flat_map in I as (lo & Io & I). destruct I as [<-|[]].
    cbn [p_time p_vals p_lat p_long]. split; [reflexivity|]. split; [rewrite map_length, seq_length; reflexivity|]. intros v rows V Sr.
    set (p := mkP _ _ _ _) in Sr.
    assert (Er : rows = filter (at_place p) (xr_points tr)).
    { eapply selected_unique; [exact Sr|]. apply selected_filter. intros q. unfold at_place, same_place. rewrite andb_true_iff, !qeqb_true. split; intros [X Y]; split; symmetry; assumption. }
    rewrite (rows_at tr ts la lo p Tt A' B' Ia Io eq_refl eq_refl) in Er. subst rows. rewrite map_map. cbn [p_vals].
    destruct v as [|[|v]]; [| |lia]; cbn [nth map seq]; apply nan_mean.
Qed.
Print Assumptions C69_baltic_current.

(** MODIS, were its parameter there (C69_modis_refuted): what is under clouds is unknown or
    dropped, all else is as in the file. *)
Theorem C69_modis_clouds_partial : forall p b ds, sget p "file" <> None -> plain_region b -> increasing (x_lat ds) -> increasing (x_long ds) -> dated b ds ->
  exists ds' all, import_modis p b ds = Ok ds' /\ selected (belongs b) all (xr_points ds') /\
    (forall r, In r all -> exists r0, In r0 (xr_points ds) /\ p_lat r = p_lat r0 /\ p_long r = p_long r0 /\ p_time r = p_time r0 /\
       (cloudy r0 -> p_vals r = map (fun _ => None) (p_vals r0)) /\ (~ cloudy r0 -> p_vals r = p_vals r0)) /\
    (forall r0, In r0 (xr_points ds) -> ~ cloudy r0 -> In r0 all).
Proof.
  intros p b ds G R A B [T1 T2].
  destruct (trim_ok b (where_clear ds) R (increasing_filter _ _ A) (increasing_filter _ _ B)) as (ds' & E & P & S).
  { split; cbn [where_clear x_time]; destruct (x_time ds) as [ts|]; cbn [option_map]; try discriminate.
    - intros ts' [= <-]. apply increasing_z_filter, T1. reflexivity.
    - intros _. apply T2. discriminate.
    - intros N. contradiction. }
  exists ds', (xr_points (where_clear ds)). split.
  { unfold import_modis. unfold given. destruct (sget p "file"); [exact E|contradiction]. }
  split; [rewrite P; apply S|]. split.
  - intros r I. destruct (where_clear_in ds r I) as (r0 & I0 & La & Lo & Ti & V). exists r0. split; [exact I0|]. split; [exact La|]. split; [exact Lo|]. split; [exact Ti|].
    split; intros C.
    + apply clear_spec in C. rewrite C in V. exact V.
    + destruct (clear (p_vals r0)) eqn:E0; [exact V|]. exfalso. apply C, clear_spec, E0.
  - intros r0 I C. apply where_clear_keeps; [exact I|]. destruct (clear (p_vals r0)) eqn:E0; [reflexivity|]. exfalso. apply C, clear_spec, E0.
Qed.
Print Assumptions C69_modis_clouds_partial.

(** A case: an ERA5 file of 2 by 3 points, longitudes from 0 to 360. *)
Definition im_region : boundary := mkB (-70) (-40) (-100) 20 [].
Definition im_file : xrds := mkXr [(-50, 0%nat); (-60, 1%nat)] [(0, 0%nat); (100, 1%nat); (270, 2%nat)] None (fun i j _ => [Some (inject_Z (Z.of_nat (10 * i + j)))]).
Lemma im_plain : plain_region im_region.
Proof. unfold plain_region. cbn. repeat split; try lra. left; reflexivity. Qed.
Example C69_case : plain_region im_region /\ decreasing (x_lat im_file) /\ dated im_region im_file /\
  exists ds', import_era5 (fun l => l) im_region im_file = Ok ds' /\ List.length (xr_points ds') = 4%nat /\
    exists q, In q (xr_points ds') /\ p_lat q = -60 /\ p_long q == -90 /\ p_vals q = [Some 12].
Proof.
  split; [exact im_plain|]. split.
  { intros [|[|i]] [|[|j]] x y L X Y; cbn in *; try lia; try discriminate; try (injection X as <-; injection Y as <-; cbn; lra); destruct j; discriminate. }
  split; [split; [discriminate|intros X; contradiction]|]. eexists. split; [vm_compute; reflexivity|]. split; [reflexivity|].
  eexists. split; [left; reflexivity|]. split; [reflexivity|]. split; reflexivity.
Qed.

(** Findings.  Points at longitude 180 belong to regions that end there, and are lost. *)
Theorem C69_dateline_refuted : exists b ds ds' p, plain_region b /\ decreasing (x_lat ds) /\ dated b ds /\ In p (xr_points ds) /\ belongs b p /\
  import_era5 (fun l => l) b ds = Ok ds' /\ xr_points ds' = [].
Proof.
  exists (mkB (-70) (-40) 100 180 []), (mkXr [(-50, 0%nat)] [(180, 0%nat)] None (fun _ _ _ => [Some 1])). eexists. exists (mkP (-50) 180 None [Some 1]).
  split; [unfold plain_region; cbn; repeat split; try lra; left; reflexivity|].
  split; [intros [|i] [|j] x y L X Y; try lia; destruct j; discriminate|].
  split; [split; [discriminate|intros X; contradiction]|]. split; [left; reflexivity|]. split; [split; [unfold mem; cbn; lra|exact I]|].
  split; [vm_compute; reflexivity|reflexivity].
Qed.
Print Assumptions C69_dateline_refuted.
(** A file with increasing latitudes: all data are lost. *)
Theorem C69_ascending_refuted : exists ds ds' p, increasing (x_lat ds) /\ dated im_region ds /\ In p (xr_points ds) /\ belongs im_region p /\
  import_era5 (fun l => l) im_region ds = Ok ds' /\ xr_points ds' = [].
Proof.
  exists (mkXr [(-60, 0%nat); (-50, 1%nat)] [(0, 0%nat)] None (fun _ _ _ => [Some 1])). eexists. exists (mkP (-50) 0 None [Some 1]).
  split; [intros [|[|i]] [|[|j]] x y L X Y; cbn in *; try lia; try discriminate; try (injection X as <-; injection Y as <-; cbn; lra); destruct j; discriminate|].
  split; [split; [discriminate|intros X; contradiction]|]. split; [right; left; reflexivity|]. split; [split; [unfold mem; cbn; lra|exact I]|].
  split; [vm_compute; reflexivity|reflexivity].
Qed.
Print Assumptions C69_ascending_refuted.
(** ERA5 wind: the file's longitudes from 0 to 360 are not moved, so the data of the western
    hemisphere are lost. *)
Theorem C69_wind_refuted : exists ds ds' p q, decreasing (x_lat ds) /\ dated im_region ds /\ In p (xr_points ds) /\ moved p q /\ belongs im_region q /\
  import_reversed im_region ds = Ok ds' /\ xr_points ds' = [].
Proof.
  exists (mkXr [(-50, 0%nat); (-60, 1%nat)] [(270, 0%nat)] None (fun _ _ _ => [Some 1; Some 2])). eexists. exists (mkP (-50) 270 None [Some 1; Some 2]), (mkP (-50) (-90) None [Some 1; Some 2]).
  split; [intros [|[|i]] [|[|j]] x y L X Y; cbn in *; try lia; try discriminate; try (injection X as <-; injection Y as <-; cbn; lra); destruct j; discriminate|].
  split; [split; [discriminate|intros X; contradiction]|]. split; [left; reflexivity|].
  split; [split; [reflexivity|]; split; [reflexivity|]; split; [exists 1%Z; reflexivity|cbn; lra]|].
  split; [split; [unfold mem; cbn; lra|exact I]|]. split; [vm_compute; reflexivity|reflexivity].
Qed.
Print Assumptions C69_wind_refuted.
(** MODIS: whatever the parameters, the class is never given a parameter 'file', which it
    reads: AttributeError. *)
Theorem C69_modis_refuted : forall glob name p min_dp cls q q' b ds, dict_ok p -> get_dataloader glob name p min_dp = Ok (cls, q) ->
  add_default_params cls q = Ok q' -> cls = "MODISDataLoader"%string -> import_modis q' b ds = Err AttributeError.
Proof.
  intros glob name p min_dp cls q q' b ds D E A ->. unfold get_dataloader in E. destruct (translate_file_input glob p) as [r|] eqn:T; [|discriminate]. cbn [bind] in E.
  destruct (translate_spec glob p r D T) as (_ & F & _). destruct (sget requirements _) as [[c req]|]; [|discriminate]. destruct (forallb _ req); [|discriminate]. injection E as _ <-.
  cbn [add_default_params String.eqb Ascii.eqb Bool.eqb existsb lut_classes orb] in A. injection A as <-. unfold import_modis.
  match goal with |- context [given ?x "file"] => assert (G : given x "file" = false) end; [|rewrite G; reflexivity].
  assert (K : forall k v d, k <> "file"%string -> given (dflt k v d) "file" = given d "file").
  { intros k v d N. unfold dflt. destruct (given d k); [reflexivity|]. unfold given. rewrite sget_sset. destruct (String.eqb_spec "file" k); [congruence|reflexivity]. }
  unfold base_defaults. rewrite !K by discriminate. unfold given. rewrite !sget_sset. cbn [String.eqb Ascii.eqb Bool.eqb]. rewrite F. reflexivity.
Qed.
Print Assumptions C69_modis_refuted.
Example C69_modis_case : match get_dataloader (fun _ => []) "MODIS" [("file", JStr "a.nc")]%string 5 with
  | Ok (c, q) => c = "MODISDataLoader"%string /\ match add_default_params c q with Ok _ => True | Err _ => False end
  | Err _ => False end.
Proof. vm_compute. split; [reflexivity|exact I]. Qed.
