(** Property theorem C88: from files of scalars and vectors to the values of cells.
    [dsin] and [dcos] are the sine and cosine of degrees; the other parameters are as in
    PropsSources.v.  The proofs are in VecSourcesProofs.v. *)
From Verif Require Import Base Geo Graph Cell Loaders AddLoader VecLoader Builder Env Spec MeshSpec EnvSpec DataSpec QLib Construct ConstructSpec Names PyStr Dates DateSpec Config ConfigSpec Params ParamSpec
  Downsample Files FilesSpec Import ImportSpec Reproject ReprojectSpec Pipeline PipeSpec ConfigProofs PipeProofs PropsPipe Sources SourcesSpec SourcesProofs PropsSources
  MixSpec MixProofs PropsMix DateSpec FilesProofs PropsFiles VecSources VecSourcesSpec VecSourcesProofs.
From Verif Require NamesSpec.
Open Scope string_scope.
Open Scope Z_scope.

(** For a validated configuration whose sources are scalars and vectors in csv files or in
    netCDF files of the listed kinds, with names of their own: building ends with a mesh
    that survives writing and reading, and every cell is quartered and holds values as
    called for by all rows of the files, whatever was cut away when they were read. *)
Theorem C88_files_partial : forall files pad now glob ft sqrt dsin dcos proj read_csv open_nc cfg s b ss0,
  validate_mesh_config files cfg = Ok tt -> says cfg s -> from_json pad now cfg = Ok b ->
  admissible b (s_width s) (s_height s) ->
  (s_lat_min s < s_lat_max s)%Q -> (s_lat_max s - s_lat_min s < 360)%Q -> 0 <= s_points s ->
  Forall2 (describes_source glob read_csv open_nc sqrt dsin dcos b (s_points s)) (s_loaders s) ss0 -> names_apart ss0 ->
  exists ss fuel em em',
    Forall2 (describes_source glob read_csv open_nc sqrt dsin dcos b (s_points s)) (s_loaders s) ss /\
    map names_of ss = map names_of ss0 /\
    (forall fuel', (fuel <= fuel')%nat -> generate files pad now glob ft (construct_any sqrt dsin dcos proj read_csv open_nc) fuel' cfg = Ok em) /\
    load_from_json (to_json em) = Ok em' /\
    map e_id (em_cells em') = map e_id (em_cells em) /\ map e_data (em_cells em') = map e_data (em_cells em) /\
    env_tiles (region b) (em_cells em') /\
    (forall c, In c (em_cells em) -> as_wanted sqrt ss b (s_width s) (s_height s) (s_depth s) c).
Proof.
  intros files pad now glob ft sqrt dsin dcos proj read_csv open_nc cfg s b ss0 Hv Hs Hb Ha Hl Hl' Hp Hf Hn.
  destruct (from_json_says pad now cfg s b Hs Hb) as (F1 & F2 & F3 & F4 & F5 & _).
  assert (R : plain_region b).
  { destruct Ha as (((V1 & V2 & V3 & V4) & V5) & _). split; [exact V3|]. split; [exact V1|]. split; [exact V4|]. split; [rewrite F1, F2; exact Hl|exact V5]. }
  destruct (all_provided glob sqrt dsin dcos proj read_csv open_nc b (s_points s) R (s_loaders s) ss0 0%nat Hf) as (ss & ts & Le & Pr & Ag & De & Al).
  { intros v I. split; [apply (proj1 (proj2 Hn)), I|]. intros n In. apply (proj1 Hn (Vector v) n I In). }
  assert (At : names_apart ts).
  { apply (alike_apart ss0); [|exact Hn]. clear - Al. induction Al; constructor; [apply alike_sym; assumption|assumption]. }
  assert (As : names_apart ss).
  { apply (alike_apart ts); [|exact At]. clear - Ag. induction Ag; constructor; [apply alike_sym; eapply sagree_alike; eassumption|assumption]. }
  destruct (C87_generated_partial files pad now glob ft (construct_any sqrt dsin dcos proj read_csv open_nc) sqrt cfg s b ss Hv Hs Hb Ha Hl Hl' Hp Le Pr As)
    as (fuel & em & em' & G & L & _ & _ & _ & _ & I & D & _ & _ & T & _ & _ & C).
  exists ts, fuel, em, em'. split; [exact De|]. split; [clear - Al; induction Al as [|t s0 ts ss0 A Al IH]; [reflexivity|cbn [map]; rewrite IH; f_equal; apply alike_names, A]|].
  split; [exact G|]. split; [exact L|]. split; [exact I|]. split; [exact D|]. split; [exact T|].
  intros c Ic. apply (sagree_wanted sqrt b ss ts); [apply R|apply Ha|apply Ha|exact Ag|apply C, Ic].
Qed.
Print Assumptions C88_files_partial.

(** ** A case *)
(** A scalar, a vector from two csv files with their columns in different orders, and the
    direction of waves; some rows are outside the region. *)
Definition vs_csv (file : string) : res dframe :=
  let n q := ENum (Some q) in
  if String.eqb file "s.csv" then Ok [("lat", [n 2; n 8; n 50; n 3; n 4; n 5]); ("long", [n 2; n 8; n 8; n 13; n 13; n 13]); ("SIC", [n 1; n 1; n 77; n 4; n 4; n 9])]%Q
  else if String.eqb file "u.csv" then Ok [("lat", [n 2; n 2; n 50]); ("long", [n 12; n 13; n 8]); ("uC", [n 0; n 0; n 77]); ("vC", [n 2; n 2; n 77])]%Q
  else if String.eqb file "v.csv" then Ok [("vC", [n (-2); n 1; n 1]); ("uC", [n 0; n 3; n 3]); ("long", [n 18; n 2; n 8]); ("lat", [n 8; n 2; n 8])]%Q
  else Err FileNotFoundError.
Definition vs_grid : xrds :=
  mkXr [(15, 0%nat); (5, 1%nat); (-5, 2%nat)]%Q [(5, 0%nat); (350, 1%nat); (15, 2%nat)]%Q None (fun i j _ => [Some (inject_Z (Z.of_nat (10 * i + j)))]).
Definition vs_nc (cls : string) (files : list string) : res (list string * xrds) :=
  match files with ["wave_data_2017-02-02.nc"] => Ok (["mwd"], vs_grid) | _ => Err FileNotFoundError end.
Definition vs_params : list (string * params) :=
  [("Scalar_CSV", [("file", JStr "s.csv"); ("splitting_conditions", JArr [mix_condition]); ("value_fill_types", JInt 0)]);
   ("Vector_CSV", [("files", JArr [JStr "u.csv"; JStr "v.csv"]); ("splitting_conditions", JArr [mix_vcondition])]);
   ("ERA5_wave_direction", [("files", JArr [JStr "wave_data_2017-02-02.nc"; JStr "wave_data_2017-03-02.nc"]); ("data_name", JStr "uWave,vWave")])].
Definition vs_config : json :=
  JObj [("region", JObj [("lat_min", JInt 0); ("lat_max", JInt 10); ("long_min", JInt 0); ("long_max", JInt 20);
                         ("start_time", JStr "2017-02-01"); ("end_time", JStr "2017-02-04");
                         ("cell_width", JInt 10); ("cell_height", JInt 10)]);
        ("data_sources", JArr (map (fun s => JObj [("loader", JStr (fst s)); ("params", JObj (snd s))]) vs_params));
        ("splitting", JObj [("split_depth", JInt 1); ("minimum_datapoints", JInt 2)])].
Definition vs_settings : settings := mkSettings 0 10 0 20 "2017-02-01" "2017-02-04" 10 10 1 2 vs_params.
Definition vs_wave (l : list (option Q)) : list (option Q) := wave_vector (fun q => q) (fun q => (q * q)%Q) l.
Definition vs_scalar : feed :=
  mkFeed "SIC" false "MEAN" 2 [mkCond 5 (1#10) (9#10) false] (FillNum 0)
    [mkP 2 2 None [Some 1%Q]; mkP 8 8 None [Some 1%Q]; mkP 50 8 None [Some 77%Q]; mkP 3 13 None [Some 4%Q]; mkP 4 13 None [Some 4%Q]; mkP 5 13 None [Some 9%Q]].
Definition vs_u : data := [mkP 2 12 None [Some 0%Q; Some 2%Q]; mkP 2 13 None [Some 0%Q; Some 2%Q]; mkP 50 8 None [Some 77%Q; Some 77%Q]].
Definition vs_v : data := [mkP 8 18 None [Some 0%Q; Some (-2)%Q]; mkP 2 2 None [Some 3%Q; Some 1%Q]; mkP 8 8 None [Some 3%Q; Some 1%Q]].
Definition vs_vector : vfeed := mkVFeed ["uC"; "vC"] false "MEAN" 2 [mkCond 1 (1#10) (9#10) false] (vs_u ++ vs_v)%list.
Definition vs_waves : vfeed :=
  mkVFeed ["uWave"; "vWave"] true "MEAN" 2 []
    (map (fun p => mkP (p_lat p) (if qleb 180 (p_long p) then p_long p - 360 else p_long p) (p_time p) (vs_wave (p_vals p)))%Q (xr_points vs_grid)).
Definition vs_sources : list source := [Scalar vs_scalar; Vector vs_vector; Vector vs_waves].
Lemma vs_says : says vs_config vs_settings.
Proof.
  unfold vs_config. do 4 eexists. split; [reflexivity|]. split; [reflexivity|]. split.
  - unfold region_says, number_at, text_at, only_keys. cbn [s_lat_min s_lat_max s_long_min s_long_max s_start s_end s_width s_height vs_settings].
    repeat split; try (eexists; split; [reflexivity|]; match goal with |- number (JInt ?z) _ => exact (num_int z) end).
    cbn [In]. intros k v H. repeat (destruct H as [[= <- _]|H]; [tauto|]). destruct H.
  - split; [reflexivity|]. split.
    + cbn [map vs_params s_loaders vs_settings]. repeat (apply Forall2_cons; [eexists; split; [reflexivity|]; unfold text_at, only_keys; cbn [fst snd]; repeat split;
        cbn [In]; intros k v H; repeat (destruct H as [[= <- _]|H]; [tauto|]); destruct H|]). apply Forall2_nil.
    + split; [reflexivity|]. unfold whole_at, only_keys. cbn [s_depth s_points vs_settings]. repeat split.
      * eexists. split; [reflexivity|constructor].
      * eexists. split; [reflexivity|constructor].
      * cbn [In]. intros k v H. repeat (destruct H as [[= <- _]|H]; [tauto|]). destruct H.
Qed.
Lemma vs_apart : names_apart vs_sources.
Proof.
  split; [|split].
  - intros s n I H. cbn in I. assert (N : n = "SIC" \/ n = "uC" \/ n = "vC" \/ n = "uWave" \/ n = "vWave") by (destruct I as [<-|[<-|[<-|[]]]]; cbn in H; intuition congruence).
    destruct N as [->|[->|[->|[->| ->]]]]; (split; [intros a b; do 6 (try destruct a as [|? a]); cbn; discriminate|cbn; intuition discriminate]).
  - intros v [E|[E|[E|[]]]]; [discriminate| |]; injection E as <-; (cbn; split; [repeat constructor; cbn; intuition discriminate|lia]).
  - intros [|[|[|[|i]]]] [|[|[|[|j]]]] v t n Ne Hi Hj I; cbn in Hi, Hj; try discriminate; try congruence;
    injection Hi as <-; injection Hj as <-; cbn in I |- *; intuition congruence.
Qed.
Ltac entry_here := eexists; split; [cbn; tauto|reflexivity].
Lemma vs_holds : (exists t, vs_csv "s.csv" = Ok t /\ SourcesSpec.holds false "SIC" t (f_data vs_scalar)) /\
  (exists t, vs_csv "u.csv" = Ok t /\ vector_holds false ["uC"; "vC"] t vs_u) /\ (exists t, vs_csv "v.csv" = Ok t /\ vector_holds false ["uC"; "vC"] t vs_v).
Proof.
  split; [|split]; eexists; (split; [reflexivity|]);
    (split; [split; [nodup_keys|intros c l H; repeat (destruct H as [[= <- <-]|H]; [reflexivity|]); destruct H]|]);
    (split; [intros c; cbn; intuition (subst; try discriminate; auto)|]);
    intros [|[|[|[|[|[|k]]]]]] p E; cbn in E; try discriminate; try (destruct k; discriminate); injection E as <-; cbn [p_lat p_long p_time p_vals];
      (split; [entry_here|]; split; [entry_here|]; split; [reflexivity|]).
  all: first [eexists; split; [reflexivity|]; entry_here | repeat (apply Forall2_cons; [entry_here|]); apply Forall2_nil].
Qed.
Ltac letters := first [left; reflexivity | right; first [exists 18%nat; split; [lia|left; split; reflexivity] | exists 2%nat; split; [lia|left; split; reflexivity] | exists 21%nat; split; [lia|left; split; reflexivity]
  | exists 4%nat; split; [lia|left; split; reflexivity] | exists 17%nat; split; [lia|left; split; reflexivity] | exists 0%nat; split; [lia|left; split; reflexivity]]].
Ltac commaless := intros a b; do 6 (try destruct a as [|? a]); cbn; discriminate.
Lemma vs_period : in_period mix_bounds ["wave_data_2017-02-02.nc"; "wave_data_2017-03-02.nc"] ["wave_data_2017-02-02.nc"].
Proof.
  assert (D : calendar_date (2017, 2, 1) /\ calendar_date (2017, 2, 4) /\ calendar_date (2017, 2, 2) /\ calendar_date (2017, 3, 2)).
  { repeat split; [exists 28|exists 28|exists 28|exists 31]; (split; [first [apply ml_31; cbn; tauto|apply ml_28; unfold leap_year, Z.divide; intros [[k H] _]; lia]|lia]). }
  exists (2017, 2, 1), (2017, 2, 4). split; [apply D|]. split; [apply D|]. split; [reflexivity|].
  assert (N : name_era5 "wave_data_2017-02-02.nc" (2017, 2, 2) /\ name_era5 "wave_data_2017-03-02.nc" (2017, 3, 2)).
  { split; [exists "", "wave_data_", "2017-02-02", ".nc"|exists "", "wave_data_", "2017-03-02", ".nc"]; (a_name; [left; reflexivity|]); [exists "2017", "02", "02"|exists "2017", "03", "02"]; a_name; right; reflexivity. }
  assert (A : a_date (2017, 2, 2) /\ a_date (2017, 3, 2)) by (repeat split; try apply D; cbn; lia).
  split; [intros f [<-|[<-|[]]]; eexists; split; try apply N; apply A|]. split; [discriminate|].
  apply pk_keep; [exists (2017, 2, 2); split; [apply N|split; [apply A|split; cbn; lia]]|]. apply pk_drop; [|apply pk_nil].
  intros (date & Hn & Ha & _ & L). pose proof (era5_date _ _ Hn Ha) as E. apply (ord_le _ _ (proj1 Ha) (proj1 (proj2 D))) in L.
  assert (X : file_date (middle (basename "wave_data_2017-03-02.nc")) = Ok 736390) by (vm_compute; reflexivity). rewrite X in E. injection E as E. rewrite <- E in L. vm_compute in L. apply L. reflexivity.
Qed.
Lemma vs_described : Forall2 (describes_source (fun _ => []) vs_csv vs_nc (fun q => q) (fun q => q) (fun q => (q * q)%Q) mix_bounds 2) (s_loaders vs_settings) vs_sources.
Proof.
  destruct vs_holds as (Hs & Hu & Hv). apply Forall2_cons; [|apply Forall2_cons; [|apply Forall2_cons; [|apply Forall2_nil]]]; cbn [describes_source].
  - left. exists "SIC", false, ["s.csv"], [f_data vs_scalar].
    split; [cbn; repeat split; letters|]. split; [|split; [cbn; intuition discriminate|]].
    + constructor; cbn [fst snd f_name f_agg f_min f_conds f_fill vs_scalar].
      * unfold dict_ok. nodup_keys.
      * reflexivity.
      * reflexivity.
      * cbn. tauto.
      * reflexivity.
      * exists "EPSG:4326". split; reflexivity.
      * split; eexists; reflexivity.
      * left. reflexivity.
      * cbn. eexists. split; [reflexivity|]. constructor; [|constructor]. do 2 eexists. split; [reflexivity|]. split; [reflexivity|].
        unfold number_at. repeat split; eexists; (split; [reflexivity|]); [exact (num_int 5)|exact (num_float _)|exact (num_float _)].
      * cbn. right. left. exists 0%Q. split; [exact (num_int 0)|reflexivity].
    + split; [exists "s.csv"; split; reflexivity|]. split; [discriminate|]. split; [|split; reflexivity].
      apply Forall2_cons; [exact Hs|apply Forall2_nil].
  - left. exists ["uC"; "vC"], false, ["u.csv"; "v.csv"], [vs_u; vs_v].
    split; [cbn; repeat split; letters|]. split; [|split; [reflexivity|split; [|split; [|split; [cbn; intuition discriminate|split; reflexivity]]]]].
    + constructor; cbn [fst snd v_names v_agg v_min v_conds vs_vector].
      * unfold dict_ok. nodup_keys.
      * reflexivity.
      * split; reflexivity.
      * split; [nodup_keys|]. intros c [<-|[<-|[]]]; (split; [commaless|unfold a_coordinate; cbn; intuition discriminate]).
      * reflexivity.
      * cbn. tauto.
      * reflexivity.
      * exists "EPSG:4326". split; reflexivity.
      * split; eexists; reflexivity.
      * left. reflexivity.
      * cbn. eexists. split; [reflexivity|]. constructor; [|constructor]. do 2 eexists. split; [reflexivity|]. split; [reflexivity|]. split; [reflexivity|].
        do 2 eexists. split; [reflexivity|]. split; [reflexivity|].
        unfold number_at. repeat split; eexists; (split; [reflexivity|]); [exact (num_int 1)|exact (num_float _)|exact (num_float _)].
      * reflexivity.
    + do 2 eexists. split; [reflexivity|]. split; [reflexivity|].
      repeat first [apply NamesSpec.nm_nil | apply NamesSpec.nm_keep; [unfold NamesSpec.positional; cbn; tauto|] | apply NamesSpec.nm_data; [unfold NamesSpec.positional; cbn; intuition discriminate|]].
    + apply Forall2_cons; [exact Hu|apply Forall2_cons; [exact Hv|apply Forall2_nil]].
  - right. right. exists "era5_wave_direction", "ERA5WaveDirectionLoader", ["uW"; "vW"], ["mwd"], ["wave_data_2017-02-02.nc"; "wave_data_2017-03-02.nc"], ["wave_data_2017-02-02.nc"], vs_grid.
    split; [cbn; repeat split; letters|]. split; [|split; [reflexivity|split; [reflexivity|split; [reflexivity|split; [split; [discriminate|intros X; contradiction]|split; [|split; reflexivity]]]]]].
    + constructor; cbn [fst snd v_names v_agg v_min v_conds vs_waves].
      * unfold dict_ok. nodup_keys.
      * split; [reflexivity|]. unfold a_coordinate. intros n [<-|[<-|[]]]; cbn; intuition discriminate.
      * split; reflexivity.
      * split; [nodup_keys|]. intros c [<-|[<-|[]]]; (split; [commaless|unfold a_coordinate; cbn; intuition discriminate]).
      * reflexivity.
      * cbn. tauto.
      * reflexivity.
      * exists "EPSG:4326". split; reflexivity.
      * split; eexists; reflexivity.
      * left. reflexivity.
      * reflexivity.
      * reflexivity.
    + apply (vl_waves _ _ _ _ vs_wave).
      * exact vs_period.
      * intros [|[|[|i]]] [|[|[|j]]] x y L X Y; cbn in *; try lia; try discriminate; try (destruct j; discriminate); injection X as <-; injection Y as <-; cbn; lra.
      * intros [|[d|] [|w l]]; reflexivity.
      * exists (v_data vs_waves). split; [|apply Permutation_refl]. cbn [v_data vs_waves].
        assert (A : forall l, (forall p, In p l -> -180 <= p_long p < 540)%Q -> Forall2 (fun p q => ImportSpec.moved p q /\ p_vals q = vs_wave (p_vals p)) l
          (map (fun p => mkP (p_lat p) (if qleb 180 (p_long p) then p_long p - 360 else p_long p) (p_time p) (vs_wave (p_vals p)))%Q l)).
        { induction l as [|p l IH]; intros B; [constructor|]. cbn [map]. constructor; [|apply IH; intros q I; apply B; right; exact I]. specialize (B p (or_introl eq_refl)).
          split; [|reflexivity]. split; [reflexivity|]. split; [reflexivity|]. destruct (qleb_spec 180 (p_long p)); cbn [p_long].
          all: split; [first [exists 1; change (inject_Z 1) with 1%Q; lra | exists 0; change (inject_Z 0) with 0%Q; lra]|lra]. }
        apply A. intros p I. vm_compute in I. repeat (destruct I as [<-|I]; [cbn; lra|]). destruct I.
Qed.
(** The hypotheses hold; the cells have the vectors of the rows in them, or their parent's. *)
Example C88_case :
  validate_mesh_config (fun _ => None) vs_config = Ok tt /\ says vs_config vs_settings /\ from_json false 0 vs_config = Ok mix_bounds /\ admissible mix_bounds 10 10 /\ names_apart vs_sources /\
  Forall2 (describes_source (fun _ => []) vs_csv vs_nc (fun q => q) (fun q => q) (fun q => (q * q)%Q) mix_bounds 2) (s_loaders vs_settings) vs_sources /\
  exists em, generate (fun _ => None) false 0 (fun _ => []) (fun _ => false) (construct_any (fun q => q) (fun q => q) (fun q => (q * q)%Q) (fun _ _ x y => (x, y)) vs_csv vs_nc) 100 vs_config = Ok em /\
    map (fun c => (e_id c, e_data c)) (em_cells em) =
      [(0, [("SIC", JNum (Some (2#2))); ("uC", JNum (Some (6#2))); ("vC", JNum (Some (2#2))); ("uWave", JNum (Some (-10)%Q)); ("vWave", JNum (Some (-100)%Q))]);
       (2, [("SIC", JNum (Some 0%Q)); ("uC", JNum (Some (0#3))); ("vC", JNum (Some (2#3))); ("uWave", JNum (Some (-12)%Q)); ("vWave", JNum (Some (-144)%Q))]);
       (3, [("SIC", JNum (Some 0%Q)); ("uC", JNum (Some 0%Q)); ("vC", JNum (Some (-2)%Q)); ("uWave", JNum (Some (-12)%Q)); ("vWave", JNum (Some (-144)%Q))]);
       (4, [("SIC", JNum (Some (17#3))); ("uC", JNum (Some (0#2))); ("vC", JNum (Some (4#2))); ("uWave", JNum (Some (-12)%Q)); ("vWave", JNum (Some (-144)%Q))]);
       (5, [("SIC", JNum (Some 0%Q)); ("uC", JNum (Some (0#3))); ("vC", JNum (Some (2#3))); ("uWave", JNum (Some (-12)%Q)); ("vWave", JNum (Some (-144)%Q))])].
Proof.
  split; [vm_compute; reflexivity|]. split; [exact vs_says|]. split; [vm_compute; reflexivity|]. split; [|split; [exact vs_apart|split; [exact vs_described|]]].
  - split; [|split; [reflexivity|split; [reflexivity|]]].
    + split; [cbn; lra|]. right. do 2 eexists. split; [reflexivity|]. discriminate.
    + intros [H _]. cbn in H. lra.
  - eexists. split; [vm_compute; reflexivity|]. vm_compute. reflexivity.
Qed.

(** SOSE and Baltic currents: the second point of the file of the former is at 350, times
    are not used; the latter are means over the two times in the period. *)
Definition cu_sose : xrds := mkXr [(5, 0%nat)]%Q [(5, 0%nat); (350, 1%nat)]%Q None (fun _ j _ => [Some (inject_Z (Z.of_nat j)); Some 2%Q]).
Definition cu_baltic : xrds :=
  mkXr [(5, 0%nat); (15, 1%nat)]%Q [(5, 0%nat); (15, 1%nat)]%Q (Some [(736361, 0%nat); (736363, 1%nat); (736400, 2%nat)])
    (fun i j t => [if (Nat.eqb j 1 && Nat.eqb t 1)%bool then None else Some (inject_Z (Z.of_nat t)); Some 4%Q]).
Definition cu_nc (cls : string) (files : list string) : res (list string * xrds) :=
  if String.eqb cls "SOSEDataLoader" then Ok (["uC"; "vC"], cu_sose) else Ok (["uC"; "vC"], cu_baltic).
Definition cu_params : params := [("files", JArr [JStr "c.nc"])].
Lemma cu_settled v : v_names v = ["uC"; "vC"] -> v_agg v = "MEAN" -> v_min v = 2 -> v_conds v = [] -> vector_settled cu_params 2 ["uC"; "vC"] v.
Proof.
  intros E1 E2 E3 E4. constructor; rewrite ?E1, ?E2, ?E3, ?E4.
  - unfold dict_ok. nodup_keys.
  - reflexivity.
  - split; reflexivity.
  - split; [nodup_keys|]. intros c [<-|[<-|[]]]; (split; [commaless|unfold a_coordinate; cbn; intuition discriminate]).
  - reflexivity.
  - cbn. tauto.
  - reflexivity.
  - exists "EPSG:4326". split; reflexivity.
  - split; eexists; reflexivity.
  - left. reflexivity.
  - reflexivity.
  - reflexivity.
Qed.
Example C88_currents_case :
  describes_source (fun _ => []) vs_csv cu_nc (fun q => q) (fun q => q) (fun q => q) mix_bounds 2 ("Sose", cu_params)
    (Vector (mkVFeed ["uC"; "vC"] false "MEAN" 2 [] [mkP 5 5 None [Some 0%Q; Some 2%Q]; mkP 5 (350 - 360) None [Some 1%Q; Some 2%Q]])) /\
  (exists d, describes_source (fun _ => []) vs_csv cu_nc (fun q => q) (fun q => q) (fun q => q) mix_bounds 2 ("baltic_currents", cu_params) (Vector (mkVFeed ["uC"; "vC"] true "MEAN" 2 [] d))) /\
  let built cls := (r <- construct_any (fun q => q) (fun q => q) (fun q => q) (fun _ _ x y => (x, y)) vs_csv cu_nc 0 cls (base_defaults cls (("min_dp", JInt 2) :: cu_params)) mix_bounds ;; Ok (snd r)) in
    built "SOSEDataLoader" = Ok [mkP 5 5 None [Some 0%Q; Some 2%Q]] /\
    built "BalticCurrentDataLoader" = Ok [mkP 5 5 None [Some (1#2); Some (8#2)]; mkP 5 15 None [Some 0%Q; Some (8#2)]].
Proof.
  assert (R : plain_region mix_bounds) by (repeat split; cbn; try lra; right; do 2 eexists; split; [reflexivity|discriminate]).
  assert (Two : forall (a b : Q) (k l : nat), (a < b)%Q -> strictly [(a, k); (b, l)]).
  { intros a b k l L [|[|i]] [|[|j]] x y X Y Z; cbn in *; try lia; try discriminate; try (destruct j; discriminate). injection Y as <-. injection Z as <-. exact L. }
  split; [|split].
  - right. left. exists ["c.nc"], cu_sose. split; [cbn; repeat split; letters|]. split; [apply cu_settled; reflexivity|]. split; [reflexivity|]. split; [reflexivity|].
    split; [intros p I; vm_compute in I; repeat (destruct I as [<-|I]; [reflexivity|]); destruct I|]. split; [|reflexivity].
    apply Forall2_cons; [|apply Forall2_cons; [|apply Forall2_nil]]; (split; [reflexivity|split; [reflexivity|split; [reflexivity|]]]); cbn; [left|right]; (split; [lra|reflexivity]).
  - assert (D : dated mix_bounds cu_baltic).
    { split; [|intros _; do 2 eexists; reflexivity]. intros ts E. injection E as <-. intros [|[|[|i]]] [|[|[|j]]] x y L X Y; cbn in *; try lia; try discriminate; try (destruct j; discriminate); injection X as <-; injection Y as <-; cbn; lia. }
    destruct (baltic_got mix_bounds cu_baltic _ R (Two 5%Q 15%Q 0%nat 1%nat eq_refl) (Two 5%Q 15%Q 0%nat 1%nat eq_refl) D eq_refl) as (ds' & _ & (_ & _ & _ & d & Pm & _)); [discriminate|].
    exists d. right. right. exists "baltic_currents", "BalticCurrentDataLoader", ["uC"; "vC"], ["uC"; "vC"], ["c.nc"], ["c.nc"], cu_baltic.
    split; [cbn; repeat split; letters|]. split; [apply cu_settled; reflexivity|]. split; [reflexivity|]. split; [reflexivity|].
    split; [split; [reflexivity|]; intros p I; vm_compute in I; repeat (destruct I as [<-|I]; [reflexivity|]); destruct I|]. split; [exact D|].
    split; [|split; reflexivity]. eapply vl_baltic; [apply Two; lra|apply Two; lra|reflexivity|discriminate|exact Pm].
  - split; vm_compute; reflexivity.
Qed.

(** ** Restrictions *)
(** Whatever the files and parameters, a vector source that is built has two components. *)
Theorem C88_two : forall sqrt dsin dcos proj read_csv open_nc k cls p b ld d, In cls vector_classes ->
  construct_any sqrt dsin dcos proj read_csv open_nc k cls p b = Ok (ld, d) -> List.length (l_names ld) = 2%nat.
Proof.
  intros sqrt dsin dcos proj read_csv open_nc k cls p b ld d I E.
  assert (T : forall ns u, add_mag_dir ns = Ok u -> List.length ns = 2%nat) by (intros [|x [|y [|z l]]] u X; try discriminate; reflexivity).
  unfold construct_any in E. destruct (String.eqb cls "VectorCSVDataLoader"); [|destruct (String.eqb cls "SOSEDataLoader")].
  - unfold construct_vector_csv, construct_frame in E. repeat match type of E with bind ?m ?f = _ => let X := fresh "X" in destruct m eqn:X; cbn [bind] in E; [|discriminate] end.
    injection E as <- _. cbn [l_names vector_df]. eapply T. eassumption.
  - unfold construct_sose, construct_frame in E. repeat match type of E with bind ?m ?f = _ => let X := fresh "X" in destruct m eqn:X; cbn [bind] in E; [|discriminate] end.
    injection E as <- _. cbn [l_names vector_df]. eapply T. eassumption.
  - assert (V : existsb (String.eqb cls) vector_classes = true) by (apply existsb_exists; exists cls; split; [exact I|apply String.eqb_refl]).
    rewrite V in E. unfold construct_vector_grid, construct_vector_dataset in E. repeat match type of E with bind ?m ?f = _ => let X := fresh "X" in destruct m eqn:X; cbn [bind] in E; [|discriminate] end.
    destruct (String.eqb _ _); [|discriminate]. repeat match type of E with bind ?m ?f = _ => let X := fresh "X" in destruct m eqn:X; cbn [bind] in E; [|discriminate] end.
    injection E as <- _. cbn [l_names vector_xr]. eapply T. eassumption.
Qed.
Print Assumptions C88_two.
(** Winds at longitudes from 0 to 360, as ERA5 gives them, are not moved as the directions
    of waves are: those of a region west of Greenwich are lost, without an exception. *)
Theorem C88_wind_refuted : exists files ds p b q q', x_lat ds <> [] /\ decreasing (x_lat ds) /\ increasing (x_long ds) /\ dated b ds /\
  attr_files p = Ok files /\ unprojected p /\ plain_region b /\ In q (xr_points ds) /\ ImportSpec.moved q q' /\ p_vals q' = p_vals q /\ belongs b q' /\
  forall sqrt dsin dcos proj read_csv k, exists ld,
    construct_any sqrt dsin dcos proj read_csv (fun _ _ => Ok (["u10"; "v10"], ds)) k "ERA5WindDataLoader" p b = Ok (ld, []).
Proof.
  exists ["era5_wind_2017-02-02.nc"], (mkXr [(5, 0%nat)]%Q [(350, 0%nat)]%Q None (fun _ _ _ => [Some 1%Q; Some 2%Q])),
    (base_defaults "ERA5WindDataLoader" [("files", JArr [JStr "era5_wind_2017-02-02.nc"])]), (mkB 0 10 (-20) 0 [736361; 736364]), (mkP 5 350 None [Some 1%Q; Some 2%Q]), (mkP 5 (-10) None [Some 1%Q; Some 2%Q]).
  split; [discriminate|]. split; [intros [|i] [|j] x y L X Y; cbn in *; try lia; destruct j; discriminate|].
  split; [intros [|i] [|j] x y L X Y; cbn in *; try lia; destruct j; discriminate|]. split; [split; [discriminate|intros X; contradiction]|].
  split; [reflexivity|]. split; [repeat split; eexists; try split; reflexivity|]. split; [repeat split; cbn; try lra; right; do 2 eexists; split; [reflexivity|discriminate]|].
  split; [vm_compute; left; reflexivity|]. split; [split; [reflexivity|]; split; [reflexivity|]; split; [exists 1; reflexivity|cbn; lra]|]. split; [reflexivity|].
  split; [split; [unfold mem; cbn; lra|exact I]|]. intros. eexists. vm_compute. reflexivity.
Qed.
Print Assumptions C88_wind_refuted.
