(** Property theorem C87: generating a mesh from scalar and vector sources.  Parameters
    as in PropsPipe.v.  Statements only; the proofs are in MixProofs.v. *)
From Verif Require Import Base Geo Graph Cell Loaders AddLoader VecLoader Builder Env Spec MeshSpec EnvSpec DataSpec QLib Config ConfigSpec Params Pipeline PipeSpec PipeProofs MixSpec MixProofs.
Open Scope string_scope.
Open Scope Z_scope.

(** C87.  For a validated configuration whose sources are scalars and vectors with names
    of their own: building always ends with a mesh that can be written and read back; its
    cells tile the region with exactly their contacts; every cell is quartered where, and
    only where, the conditions on scalars and on vectors together call for it; and it
    holds every component of every vector, and every scalar, as aggregated over its bounds
    or else over those of the nearest ancestor that has a value. *)
Theorem C87_generated_partial : forall files pad now glob ft construct sqrt cfg s b ss,
  validate_mesh_config files cfg = Ok tt -> says cfg s -> from_json pad now cfg = Ok b ->
  admissible b (s_width s) (s_height s) ->
  (s_lat_min s < s_lat_max s)%Q -> (s_lat_max s - s_lat_min s < 360)%Q -> 0 <= s_points s ->
  List.length ss = List.length (s_loaders s) ->
  (forall k src f, nth_error (s_loaders s) k = Some src -> nth_error ss k = Some f ->
     provides glob construct sqrt b (s_points s) k src f) ->
  names_apart ss ->
  exists fuel em em',
    (forall fuel', (fuel <= fuel')%nat -> generate files pad now glob ft construct fuel' cfg = Ok em) /\
    load_from_json (to_json em) = Ok em' /\
    em_bounds em = b /\ em_bounds em' = b /\
    em_config em = mkCfg b (s_width s) (s_height s) (s_depth s) [] /\ em_config em' = em_config em /\
    map e_id (em_cells em') = map e_id (em_cells em) /\ map e_data (em_cells em') = map e_data (em_cells em) /\
    map e_bounds (em_cells em') = map without_times (map e_bounds (em_cells em)) /\
    NoDup (map e_id (em_cells em')) /\ env_tiles (region b) (em_cells em') /\
    (~ spans_globe b -> lists_contacts touches (em_cells em') (em_graph em')) /\
    (spans_globe b -> lists_contacts touches_mod (em_cells em') (em_graph em')) /\
    (forall c, In c (em_cells em) -> as_wanted sqrt ss b (s_width s) (s_height s) (s_depth s) c).
Proof. exact mixed. Qed.
Print Assumptions C87_generated_partial.

(** What a cell holds is settled by its bounds and those of its ancestors. *)
Theorem C87_settled : forall sqrt ss l n o o', names_apart ss -> holds sqrt ss l n o -> holds sqrt ss l n o' -> o = o'.
Proof. exact holds_fun. Qed.
Print Assumptions C87_settled.

(** ** A case *)
Definition mix_condition : json :=
  JObj [("SIC", JObj [("threshold", JInt 5); ("lower_bound", JFloat (1#10)); ("upper_bound", JFloat (9#10))])].
Definition mix_vcondition : json :=
  JObj [("uC,vC", JObj [("dmag", JObj [("threshold", JInt 1); ("lower_bound", JFloat (1#10)); ("upper_bound", JFloat (9#10))])])].
Definition mix_params : list (string * params) :=
  [("Scalar_CSV", [("file", JStr "sic.csv"); ("splitting_conditions", JArr [mix_condition]); ("value_fill_types", JInt 0)]);
   ("Vector_CSV", [("file", JStr "currents.csv"); ("splitting_conditions", JArr [mix_vcondition])])].
Definition mix_config : json :=
  JObj [("region", JObj [("lat_min", JInt 0); ("lat_max", JInt 10); ("long_min", JInt 0); ("long_max", JInt 20);
                         ("start_time", JStr "2017-02-01"); ("end_time", JStr "2017-02-04");
                         ("cell_width", JInt 10); ("cell_height", JInt 10)]);
        ("data_sources", JArr (map (fun s => JObj [("loader", JStr (fst s)); ("params", JObj (snd s))]) mix_params));
        ("splitting", JObj [("split_depth", JInt 1); ("minimum_datapoints", JInt 2)])].
Definition mix_settings : settings := mkSettings 0 10 0 20 "2017-02-01" "2017-02-04" 10 10 1 2 mix_params.
Definition mix_bounds : boundary :=
  Eval vm_compute in match from_json false 0 mix_config with Ok b => b | Err _ => mkB 0 0 0 0 [] end.
Definition mix_scalar : feed :=
  mkFeed "SIC" false "MEAN" 2 [mkCond 5 (1#10) (9#10) false] (FillNum 0)
    [mkP 2 2 None [Some 1%Q]; mkP 8 8 None [Some 1%Q]; mkP 8 9 None [Some 1%Q]; mkP 3 13 None [Some 4%Q]; mkP 4 13 None [Some 4%Q]; mkP 5 13 None [Some 9%Q]].
Definition mix_vector : vfeed :=
  mkVFeed ["uC"; "vC"] false "MEAN" 2 [mkCond 1 (1#10) (9#10) false]
    [mkP 2 12 None [Some 0%Q; Some 2%Q]; mkP 2 13 None [Some 0%Q; Some 2%Q]; mkP 8 18 None [Some 0%Q; Some (-2)%Q];
     mkP 2 2 None [Some 1%Q; Some 1%Q]; mkP 8 8 None [Some 1%Q; Some 1%Q]; mkP 8 2 None [Some 1%Q; Some 1%Q]].
Definition mix_sources : list source := [Scalar mix_scalar; Vector mix_vector].
Definition mix_construct (k : nat) (cls : string) (p : params) (b : boundary) : res (loader * data) :=
  if String.eqb cls "ScalarCSVDataLoader" then Ok (feed_loader (fun q => q) k mix_scalar, f_data mix_scalar)
  else if String.eqb cls "VectorCSVDataLoader" then Ok (vfeed_loader (fun q => q) k mix_vector, v_data mix_vector) else Err ValueError.
Lemma mix_says : says mix_config mix_settings.
Proof.
  unfold mix_config. do 4 eexists. split; [reflexivity|]. split; [reflexivity|]. split.
  - unfold region_says, number_at, text_at, only_keys. cbn [s_lat_min s_lat_max s_long_min s_long_max s_start s_end s_width s_height mix_settings].
    repeat split; try (eexists; split; [reflexivity|]; match goal with |- number (JInt ?z) _ => exact (num_int z) end).
    cbn [In]. intros k v H. repeat (destruct H as [[= <- _]|H]; [tauto|]). destruct H.
  - split; [reflexivity|]. split.
    + cbn [map mix_params s_loaders mix_settings]. repeat apply Forall2_cons; [| |apply Forall2_nil]; eexists; (split; [reflexivity|]); unfold text_at, only_keys; cbn [fst snd]; repeat split;
        cbn [In]; intros k v H; repeat (destruct H as [[= <- _]|H]; [tauto|]); destruct H.
    + split; [reflexivity|]. unfold whole_at, only_keys. cbn [s_depth s_points mix_settings]. repeat split.
      * eexists. split; [reflexivity|constructor].
      * eexists. split; [reflexivity|constructor].
      * cbn [In]. intros k v H. repeat (destruct H as [[= <- _]|H]; [tauto|]). destruct H.
Qed.
Lemma mix_apart : names_apart mix_sources.
Proof.
  split; [|split].
  - intros s n I H. cbn in I. assert (N : n = "SIC" \/ n = "uC" \/ n = "vC") by (destruct I as [<-|[<-|[]]]; cbn in H; intuition congruence).
    destruct N as [->|[->| ->]]; (split; [intros a b; do 4 (try destruct a as [|? a]); cbn; discriminate|cbn; intuition discriminate]).
  - intros v [E|[E|[]]]; [discriminate|]. injection E as <-. cbn. split; [repeat constructor; cbn; intuition discriminate|lia].
  - intros [|[|[|i]]] [|[|[|j]]] v t n Ne Hi Hj I; cbn in Hi, Hj; try discriminate; try congruence.
    injection Hi as <-. injection Hj as <-. cbn in I |- *. intuition congruence.
Qed.
(** The hypotheses hold, and the mesh has one unsplit cell and the quarters of the other,
    which both sources ask to split: the scalar is 0 where there is no point, the vector is
    that of the whole cell. *)
Example C87_case :
  validate_mesh_config (fun _ => None) mix_config = Ok tt /\ says mix_config mix_settings /\
  from_json false 0 mix_config = Ok mix_bounds /\ admissible mix_bounds 10 10 /\ names_apart mix_sources /\
  (forall k src f, nth_error mix_params k = Some src -> nth_error mix_sources k = Some f ->
     provides (fun _ => []) mix_construct (fun q => q) mix_bounds 2 k src f) /\
  exists em, generate (fun _ => None) false 0 (fun _ => []) (fun _ => false) mix_construct 100 mix_config = Ok em /\
    map (fun c => (e_id c, e_data c)) (em_cells em) =
      [(0, [("SIC", JNum (Some (3#3))); ("uC", JNum (Some (3#3))); ("vC", JNum (Some (3#3)))]);
       (2, [("SIC", JNum (Some 0%Q)); ("uC", JNum (Some (0#3))); ("vC", JNum (Some (2#3)))]);
       (3, [("SIC", JNum (Some 0%Q)); ("uC", JNum (Some 0%Q)); ("vC", JNum (Some (-2)%Q))]);
       (4, [("SIC", JNum (Some (17#3))); ("uC", JNum (Some (0#2))); ("vC", JNum (Some (4#2)))]);
       (5, [("SIC", JNum (Some 0%Q)); ("uC", JNum (Some (0#3))); ("vC", JNum (Some (2#3)))])].
Proof.
  split; [vm_compute; reflexivity|]. split; [apply mix_says|]. split; [vm_compute; reflexivity|]. split; [|split; [exact mix_apart|split]].
  - split; [|split; [reflexivity|split; [reflexivity|]]].
    + split; [cbn; lra|]. right. do 2 eexists. split; [reflexivity|]. discriminate.
    + intros [H _]. cbn in H. lra.
  - intros [|[|[|k]]] src f E1 E2; cbn in E1, E2; try discriminate; injection E1 as <-; injection E2 as <-; cbn [provides].
    + split; [|split; [|split; [|split]]].
      * do 3 eexists. split; [vm_compute; reflexivity|]. split; [vm_compute; reflexivity|]. split; [reflexivity|]. split; [reflexivity|]. cbn. intuition discriminate.
      * cbn. tauto.
      * reflexivity.
      * cbn. eexists. split; [reflexivity|]. constructor; [|constructor]. do 2 eexists. split; [reflexivity|]. split; [reflexivity|].
        unfold number_at. repeat split; eexists; (split; [reflexivity|]); [exact (num_int 5)|exact (num_float _)|exact (num_float _)].
      * cbn. right. left. exists 0%Q. split; [exact (num_int 0)|reflexivity].
    + split; [|split; [|split; [|split; [|split; [|split]]]]].
      * do 3 eexists. split; [vm_compute; reflexivity|]. split; [vm_compute; reflexivity|]. split; [reflexivity|]. split; [reflexivity|]. cbn. intuition discriminate.
      * cbn. tauto.
      * reflexivity.
      * discriminate.
      * cbn. intros p I. repeat (destruct I as [<-|I]; [reflexivity|]). destruct I.
      * cbn. eexists. split; [reflexivity|]. constructor; [|constructor]. do 2 eexists. split; [reflexivity|]. split; [reflexivity|]. split; [reflexivity|].
        do 2 eexists. split; [reflexivity|]. split; [reflexivity|].
        unfold number_at. repeat split; eexists; (split; [reflexivity|]); [exact (num_int 1)|exact (num_float _)|exact (num_float _)].
      * reflexivity.
  - eexists. split; vm_compute; reflexivity.
Qed.
