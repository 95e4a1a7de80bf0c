(** Property theorem C95: from configured random fields to the values of cells.  Parameters
    as in PropsWhole.v; [noise] is the generator of noise of the project, of which is
    assumed what [noisy] says.  The proofs are in GrfSourcesProofs.v and WholeProofs.v. *)
From Coq Require Import Permutation.
From Verif Require Import Shapes ShapeProofs Base Geo Graph Cell Loaders AddLoader VecLoader Builder Env Spec MeshSpec EnvSpec DataSpec QLib Construct ConstructSpec Names PyStr Dates DateSpec Config ConfigSpec Params ParamSpec
  Reproject ReprojectSpec Pipeline PipeSpec ConfigProofs PipeProofs Sources SourcesSpec SourcesProofs PropsSources MixSpec MixProofs PropsMix VecSources VecSourcesSpec VecSourcesProofs PropsVecSources
  Lut LutSpec LutFiles LutFilesSpec LutFilesProofs LutSources TableSpec TableProofs TableFiles PropsLut PropsLutFiles PropsTable ShapeSources ShapeSourcesSpec ShapeSourcesProofs AllSources WholeSpec WholeProofs
  Grf GrfSpec GrfProofs PropsGrf GrfSources GrfSourcesSpec GrfSourcesProofs.
From Verif Require ShapeSpec PropsWhole.
Open Scope string_scope.
Open Scope Z_scope.

(** Every field with parameters of the right kinds is described, for every generator. *)
Theorem C95_described : forall cos sin noise b p k seed size alpha, noisy noise -> plain_region b -> seed_or p seed -> field_size p size -> exponent_or p alpha ->
  (forall t, sget p "binary" = Some (JBool true) -> number_or p "threshold" (1#2) t ->
     exists l vals d, noise k 0%nat seed size alpha = Ok l /\ field_values p l "binary_data" vals /\ spread_out b size vals d) /\
  (forall t0 t1 lo hi m a, sget p "binary" = Some (JBool false) -> thresholds_or p t0 t1 -> (t0 < t1)%Q -> (t0 < 1)%Q -> (0 < t1)%Q ->
     number_or p "min" (-10) lo -> number_or p "max" 10 hi -> number_or p "multiplier" 1 m -> number_or p "offset" 0 a ->
     exists l vals d, noise k 0%nat seed size alpha = Ok l /\ field_values p l "scalar_data" vals /\ spread_out b size vals d) /\
  (forall lo hi, number_or p "min" 0 lo -> number_or p "max" 10 hi ->
     exists l t vals d, noise k 0%nat seed size alpha = Ok l /\ noise k 1%nat seed size alpha = Ok t /\ vector_field_values cos sin p l t vals /\ spread_out b size vals d).
Proof.
  intros cos sin noise b p k seed size alpha Hn R (_ & Se) (_ & S2) (_ & (q & Al)).
  destruct (Hn k 0%nat seed size alpha q Se S2 Al) as (l & El & Ll & Ul). destruct (Hn k 1%nat seed size alpha q Se S2 Al) as (t & Et & Lt & Ut).
  assert (Sp : forall vals, List.length vals = (Z.to_nat size * Z.to_nat size)%nat -> exists d, spread_out b size vals d).
  { intros vals L. destruct (grf_made b size vals R S2 L) as (g & _ & L1 & L2 & M). exists (grid_rows g). eapply spread_again; eauto. }
  split; [|split].
  - intros th B Th. destruct (Sp (map (fun v => [v]) (grf_values (mkGrf size true th 0 0 0 0 0) l))) as (d & D); [rewrite map_length, values_length; exact Ll|].
    exists l, (map (fun v => [v]) (grf_values (mkGrf size true th 0 0 0 0 0) l)), d. split; [exact El|]. split; [|exact D]. exact (binary_field p size th l B Th Ul).
  - intros t0 t1 lo hi m a B Th T1 T2 T3 Hlo Hhi Hm Ha. destruct (Sp (map (fun v => [v]) (grf_values (mkGrf size false t0 t1 lo hi m a) l))) as (d & D); [rewrite map_length, values_length; exact Ll|].
    exists l, (map (fun v => [v]) (grf_values (mkGrf size false t0 t1 lo hi m a) l)), d. split; [exact El|]. split; [|exact D]. apply scalar_field; assumption.
  - intros lo hi Hlo Hhi. destruct (Sp (grf_vector cos sin (mkGrf size false 0 0 lo hi 0 0) l t)) as (d & D); [rewrite vector_length by congruence; exact Ll|].
    exists l, t, (grf_vector cos sin (mkGrf size false 0 0 lo hi 0 0) l t), d. split; [exact El|]. split; [exact Et|]. split; [|exact D]. apply vector_field; [exact Hlo|exact Hhi|congruence|exact Ul|exact Ut].
Qed.
Print Assumptions C95_described.

(** For a validated configuration of sources as in C91 and random fields, the vectors with
    names of their own: building ends with a mesh that survives writing and reading; its
    cells tile the region with exactly their contacts; and every cell is quartered and
    holds values as called for by all rows, polygons and points of the fields. *)
Definition described (o : planar) (P : Type) inside glob read_table read_shapes read_csv open_nc sqrt dsin dcos cos sin noise b min_dp (src : string * params) (s : origin o) : Prop :=
  describes_origin o P inside glob read_table read_shapes read_csv open_nc sqrt dsin dcos b min_dp src s \/
  exists s', s = Point s' /\ describes_field cos sin noise b min_dp src s'.
Theorem C95_whole_partial : forall (o : planar) edge P inside, grows o -> lawful o P inside -> rectangles o inside ->
  forall files pad now glob ft sqrt dsin dcos cos sin noise proj read_csv open_nc read_table read_shapes cfg s b ss0, noisy noise ->
  validate_mesh_config files cfg = Ok tt -> says cfg s -> from_json pad now cfg = Ok b ->
  admissible b (s_width s) (s_height s) -> in_world inside b ->
  (s_lat_min s < s_lat_max s)%Q -> (s_lat_max s - s_lat_min s < 360)%Q -> 0 <= s_points s ->
  Forall2 (described o P inside glob read_table read_shapes read_csv open_nc sqrt dsin dcos cos sin noise b (s_points s)) (s_loaders s) ss0 ->
  labels_apart o ss0 ->
  exists ss fuel em em',
    Forall2 (described o P inside glob read_table read_shapes read_csv open_nc sqrt dsin dcos cos sin noise b (s_points s)) (s_loaders s) ss /\
    map (labels o) ss = map (labels o) ss0 /\
    (forall fuel', (fuel <= fuel')%nat ->
       generate files pad now glob ft (construct_every sqrt cos sin proj noise o edge dsin dcos read_csv open_nc read_table read_shapes) fuel' cfg = Ok em) /\
    load_from_json (to_json em) = Ok em' /\
    map e_id (em_cells em') = map e_id (em_cells em) /\ map e_data (em_cells em') = map e_data (em_cells em) /\
    map e_bounds (em_cells em') = map without_times (map e_bounds (em_cells em)) /\
    NoDup (map e_id (em_cells em')) /\ env_tiles (region b) (em_cells em') /\
    (~ spans_globe b -> lists_contacts touches (em_cells em') (em_graph em')) /\
    (spans_globe b -> lists_contacts touches_mod (em_cells em') (em_graph em')) /\
    (forall c, In c (em_cells em) -> as_offered o edge sqrt ss b (s_width s) (s_height s) (s_depth s) c).
Proof.
  intros o edge P inside Gr La Re files pad now glob ft sqrt dsin dcos cos sin noise proj read_csv open_nc read_table read_shapes cfg s b ss0 No Hv Hs Hb Ha Hw Hl Hl' Hp Hf Hn.
  destruct (from_json_says pad now cfg s b Hs Hb) as (F1 & F2 & F3 & F4 & F5 & _).
  assert (R : plain_region b).
  { destruct Ha as (((V1 & V2 & V3 & V4) & V5) & _). split; [exact V3|]. split; [exact V1|]. split; [exact V4|]. split; [rewrite F1, F2; exact Hl|exact V5]. }
  assert (Pl : within b b).
  { destruct R as (R1 & R2 & R3 & R4 & R5). unfold within. repeat split; lra. }
  set (construct := construct_every sqrt cos sin proj noise o edge dsin dcos read_csv open_nc read_table read_shapes).
  set (D := described o P inside glob read_table read_shapes read_csv open_nc sqrt dsin dcos cos sin noise b (s_points s)) in *.
  assert (One : forall k src s0, D src s0 -> (forall v, s0 = Point (Vector v) -> fit_names (v_names v)) ->
    exists s' t, offers o edge sqrt glob construct b (s_points s) k src s' /\ oagree o b s' t /\ D src t /\ oalike o t s0).
  { intros k src s0 [Ds|(s1 & -> & Ds)] Fn.
    - destruct (origin_offered o edge sqrt dsin dcos P inside La Re proj glob read_csv open_nc read_table read_shapes b Hw Pl (s_points s) k src s0 R Fn Ds) as (s' & t & Of & A & Dt & Al).
      exists s', t. split; [eapply offers_every; exact Of|]. split; [exact A|]. split; [left; exact Dt|exact Al].
    - destruct s1 as [f|v]; cbn [describes_field] in Ds.
      + destruct (field_supplied glob sqrt proj noise construct b (s_points s) k src f R No) as (f' & g & S & A & Dg & N); [reflexivity|exact Ds|].
        exists (Point (Scalar f')), (Point (Scalar g)). split; [exact S|]. split; [exact A|]. split; [right; eexists; split; [reflexivity|exact Dg]|exact N].
      + destruct (vector_field_supplied glob sqrt cos sin noise construct b (s_points s) k src v R No (Fn v eq_refl)) as (v' & w & S & A & Dg & N); [reflexivity|exact Ds|].
        exists (Point (Vector v')), (Point (Vector w)). split; [exact S|]. split; [exact A|]. split; [right; eexists; split; [reflexivity|exact Dg]|exact N]. }
  assert (All : forall srcs ss0 k, Forall2 D srcs ss0 -> (forall v, In (Point (Vector v)) ss0 -> fit_names (v_names v)) ->
    exists ss ts, List.length ss = List.length srcs /\
      (forall i src t, nth_error srcs i = Some src -> nth_error ss i = Some t -> offers o edge sqrt glob construct b (s_points s) (k + i) src t) /\
      Forall2 (oagree o b) ss ts /\ Forall2 D srcs ts /\ Forall2 (oalike o) ts ss0).
  { clear - One. intros srcs ss0 k F. revert k. induction F as [|src s0 srcs ss0 Ds F IH]; intros k Fn.
    - exists [], []. split; [reflexivity|]. split; [intros [|i] ? ? E; discriminate|]. repeat split; constructor.
    - destruct (One k src s0 Ds) as (s' & t & Pr & A & Dt & Al).
      { intros v ->. apply Fn. left. reflexivity. }
      destruct (IH (S k)) as (ss & ts & Le & Prs & Ag & De & As); [intros v I; apply Fn; right; exact I|].
      exists (s' :: ss), (t :: ts). split; [cbn; rewrite Le; reflexivity|]. split; [|repeat split; constructor; assumption].
      intros [|i] s1 f1 X1 X2; cbn in X1, X2.
      + injection X1 as <-. injection X2 as <-. rewrite Nat.add_0_r. exact Pr.
      + replace (k + S i)%nat with (S k + i)%nat by lia. apply Prs; assumption. }
  destruct (All (s_loaders s) ss0 0%nat Hf) as (ss & ts & Le & Pr & Ag & De & Al).
  { intros v I. split; [apply (proj1 (proj2 Hn)), I|]. intros n In. apply (proj1 Hn (Point (Vector v)) n I In). }
  assert (At : labels_apart o ts).
  { apply (oalike_apart o ss0); [|exact Hn]. clear - Al. induction Al; constructor; [apply oalike_sym; assumption|assumption]. }
  assert (As : labels_apart o ss).
  { apply (oalike_apart o ts); [|exact At]. clear - Ag. induction Ag; constructor; [apply oalike_sym; eapply oagree_alike; eassumption|assumption]. }
  destruct (C90_generated_partial o edge Gr files pad now glob ft construct sqrt cfg s b ss Hv Hs Hb Ha Hl Hl' Hp Le Pr As)
    as (fuel & em & em' & G & L & _ & _ & _ & _ & I & Da & B & N & T & C1 & C2 & C).
  exists ts, fuel, em, em'. split; [exact De|]. split; [clear - Al; induction Al as [|t s0 ts ss0 A Al IH]; [reflexivity|cbn [map]; rewrite IH; f_equal; apply oalike_labels, A]|].
  repeat (split; [assumption|]).
  intros c Ic. apply (oagree_offered o edge sqrt b ss ts); [apply R|apply Ha|apply Ha|exact Ag|apply C, Ic].
Qed.
Print Assumptions C95_whole_partial.

(** ** A case *)
(** A generator that counts; cells are split by the mask. *)
Definition gf_noise (k n : nat) (seed : json) (size : Z) (alpha : json) : res (list Q) :=
  Ok (map (fun i => inject_Z (Z.of_nat i)) (List.seq n (Z.to_nat size * Z.to_nat size))).
Lemma gf_noisy : noisy gf_noise.
Proof.
  intros k n seed size alpha q _ S2 _. eexists. split; [reflexivity|]. split; [rewrite map_length, seq_length; reflexivity|].
  assert (H : (2 <= Z.to_nat size * Z.to_nat size)%nat) by (assert (2 <= Z.to_nat size)%nat by lia; nia).
  exists (inject_Z (Z.of_nat n)), (inject_Z (Z.of_nat (S n))). split; [|split].
  - apply in_map_iff. exists n. split; [reflexivity|]. apply in_seq. lia.
  - apply in_map_iff. exists (S n). split; [reflexivity|]. apply in_seq. lia.
  - rewrite <- Zlt_Qlt. lia.
Qed.
Definition gf_condition : json :=
  JObj [("ice", JObj [("threshold", JFloat (1#2)); ("lower_bound", JFloat (1#10)); ("upper_bound", JFloat (9#10))])].
Definition gf_params : list (string * params) :=
  [("binary_grf", [("size", JInt 5); ("binary", JBool true); ("threshold", JFloat (4#10)); ("data_name", JStr "ice"); ("splitting_conditions", JArr [gf_condition])]);
   ("scalar_grf", [("size", JInt 3); ("binary", JBool false); ("min", JInt 0); ("seed", JInt 7)]);
   ("vector_grf", [("size", JInt 3); ("max", JInt 2)])].
Definition gf_config : json := tab_config gf_params.
Definition gf_settings : settings := mkSettings 0 10 0 20 "2017-02-01" "2017-02-04" 10 10 1 2 gf_params.
Lemma gf_says : says gf_config gf_settings.
Proof.
  unfold gf_config, tab_config. do 4 eexists. split; [reflexivity|]. split; [reflexivity|]. split.
  - unfold region_says, ConfigSpec.number_at, text_at, only_keys. cbn [s_lat_min s_lat_max s_long_min s_long_max s_start s_end s_width s_height gf_settings].
    repeat split; try (eexists; split; [reflexivity|]; match goal with |- number (JInt ?z) _ => exact (num_int z) end).
    cbn [In]. intros k v H. repeat (destruct H as [[= <- _]|H]; [tauto|]). destruct H.
  - split; [reflexivity|]. split.
    + cbn [map gf_params s_loaders gf_settings]. repeat (apply Forall2_cons; [eexists; split; [reflexivity|]; unfold text_at, only_keys; cbn [fst snd]; repeat split;
        cbn [In]; intros k v H; repeat (destruct H as [[= <- _]|H]; [tauto|]); destruct H|]). apply Forall2_nil.
    + split; [reflexivity|]. unfold whole_at, only_keys. cbn [s_depth s_points gf_settings]. repeat split.
      * eexists. split; [reflexivity|constructor].
      * eexists. split; [reflexivity|constructor].
      * cbn [In]. intros k v H. repeat (destruct H as [[= <- _]|H]; [tauto|]). destruct H.
Qed.
Definition gf_labels : list (list string) := [["ice"]; ["scalar_data"]; ["uC"; "vC"]].
Notation gf_described := (described boxes (Q * Q) in_boxes (fun _ => []) (fun _ => Err FileNotFoundError) tab_shapes vs_csv vs_nc (fun q => q) (fun q => q) (fun q => q) (fun q => 1 - q)%Q (fun q => q) gf_noise mix_bounds 2).
Lemma gf_fields : exists ss0, map (labels boxes) ss0 = gf_labels /\ labels_apart boxes ss0 /\ Forall2 gf_described (s_loaders gf_settings) ss0.
Proof.
  assert (R : plain_region mix_bounds) by (repeat split; cbn; try lra; right; do 2 eexists; split; [reflexivity|discriminate]).
  destruct (C95_described (fun q => 1 - q)%Q (fun q => q) gf_noise mix_bounds (snd (nth 0 gf_params ("", []))) 0%nat JNull 5 (JInt 3) gf_noisy R) as (B & _).
  { split; [reflexivity|left; reflexivity]. } { split; [reflexivity|lia]. } { split; [reflexivity|exists 3%Q; exact (num_int 3)]. }
  destruct (B (4#10)%Q) as (l & vals & d & El & F & D); [reflexivity|exact (num_float _)|].
  destruct (C95_described (fun q => 1 - q)%Q (fun q => q) gf_noise mix_bounds (snd (nth 1 gf_params ("", []))) 1%nat (JInt 7) 3 (JInt 3) gf_noisy R) as (_ & S & _).
  { split; [reflexivity|right; exists 7; split; [reflexivity|lia]]. } { split; [reflexivity|lia]. } { split; [reflexivity|exists 3%Q; exact (num_int 3)]. }
  destruct (S 0 1 0 10 1 0)%Q as (l1 & vals1 & d1 & El1 & F1 & D1); [reflexivity|split; reflexivity|reflexivity|reflexivity|reflexivity|exact (num_int 0)|reflexivity|reflexivity|reflexivity|].
  destruct (C95_described (fun q => 1 - q)%Q (fun q => q) gf_noise mix_bounds (snd (nth 2 gf_params ("", []))) 2%nat JNull 3 (JInt 3) gf_noisy R) as (_ & _ & V).
  { split; [reflexivity|left; reflexivity]. } { split; [reflexivity|lia]. } { split; [reflexivity|exists 3%Q; exact (num_int 3)]. }
  destruct (V 0 2)%Q as (l2 & t2 & vals2 & d2 & El2 & Et2 & F2 & D2); [reflexivity|exact (num_int 2)|].
  exists (map Point [Scalar (mkFeed "ice" true "MEAN" 2 [mkCond (1#2) (1#10) (9#10) false] FillParent d); Scalar (mkFeed "scalar_data" true "MEAN" 2 [] FillParent d1);
    Vector (mkVFeed ["uC"; "vC"] true "MEAN" 2 [] d2)]).
  split; [reflexivity|]. split; [split; [|split]|].
  - intros s n I H. cbn in I. assert (N : n = "ice" \/ n = "scalar_data" \/ n = "uC" \/ n = "vC") by (destruct I as [<-|[<-|[<-|[]]]]; cbn in H; intuition congruence).
    destruct N as [->|[->|[->| ->]]]; (split; [intros a b; do 13 (try destruct a as [|? a]); cbn; discriminate|cbn; intuition discriminate]).
  - intros v [E|[E|[E|[]]]]; try discriminate; injection E as <-; (cbn; split; [repeat constructor; cbn; intuition discriminate|lia]).
  - intros [|[|[|[|i]]]] [|[|[|[|j]]]] v t n Ne Hi Hj I; cbn in Hi, Hj; try discriminate; try congruence;
    injection Hi as <-; injection Hj as <-; cbn in I |- *; intuition congruence.
  - cbn [map]. apply Forall2_cons; [|apply Forall2_cons; [|apply Forall2_cons; [|apply Forall2_nil]]]; right; eexists; (split; [reflexivity|]); cbn [describes_field].
    + exists "binary_grf", 0%nat, JNull, 5, (JInt 3), l, "binary_data", vals. split; [cbn; tauto|]. split; [cbn; repeat split; left; reflexivity|]. split; [split; reflexivity|].
      split; [split; [reflexivity|left; reflexivity]|]. split; [split; [reflexivity|lia]|]. split; [split; [reflexivity|exists 3%Q; exact (num_int 3)]|]. split; [exact El|]. split; [exact F|].
      split; [|split; [exact D|reflexivity]]. constructor; cbn [fst snd f_name f_agg f_min f_conds f_fill].
      * unfold dict_ok. nodup_keys.
      * cbn. split; [reflexivity|]. cbn. intuition discriminate.
      * reflexivity.
      * cbn. tauto.
      * reflexivity.
      * exists "EPSG:4326". split; reflexivity.
      * split; eexists; reflexivity.
      * left. reflexivity.
      * cbn. eexists. split; [reflexivity|]. constructor; [|constructor]. do 2 eexists. split; [reflexivity|]. split; [reflexivity|].
        unfold ConfigSpec.number_at. repeat split; eexists; (split; [reflexivity|]); exact (num_float _).
      * reflexivity.
    + exists "scalar_grf", 1%nat, (JInt 7), 3, (JInt 3), l1, "scalar_data", vals1. split; [cbn; tauto|]. split; [cbn; repeat split; left; reflexivity|]. split; [split; reflexivity|].
      split; [split; [reflexivity|right; exists 7; split; [reflexivity|lia]]|]. split; [split; [reflexivity|lia]|]. split; [split; [reflexivity|exists 3%Q; exact (num_int 3)]|]. split; [exact El1|]. split; [exact F1|].
      split; [|split; [exact D1|reflexivity]]. constructor; cbn [fst snd f_name f_agg f_min f_conds f_fill].
      * unfold dict_ok. nodup_keys.
      * reflexivity.
      * reflexivity.
      * cbn. tauto.
      * reflexivity.
      * exists "EPSG:4326". split; reflexivity.
      * split; eexists; reflexivity.
      * left. reflexivity.
      * reflexivity.
      * reflexivity.
    + exists 2%nat, JNull, 3, (JInt 3), l2, t2, ["uC"; "vC"], vals2. split; [cbn; repeat split; left; reflexivity|]. split; [split; reflexivity|].
      split; [split; [reflexivity|left; reflexivity]|]. split; [split; [reflexivity|lia]|]. split; [split; [reflexivity|exists 3%Q; exact (num_int 3)]|]. split; [exact El2|]. split; [exact Et2|]. split; [exact F2|].
      split; [|split; [|split; [exact D2|split; reflexivity]]].
      * constructor; cbn [fst snd v_names v_agg v_min v_conds].
        -- unfold dict_ok. nodup_keys.
        -- reflexivity.
        -- split; reflexivity.
        -- split; [nodup_keys|]. intros c [<-|[<-|[]]]; (split; [intros a b; do 3 (try destruct a as [|? a]); cbn; discriminate|unfold a_coordinate; cbn; intuition discriminate]).
        -- reflexivity.
        -- cbn. tauto.
        -- reflexivity.
        -- exists "EPSG:4326". split; reflexivity.
        -- split; eexists; reflexivity.
        -- left. reflexivity.
        -- reflexivity.
        -- reflexivity.
      * exists "uC", "vC", "uC", "vC". repeat (split; [reflexivity|]). split; [discriminate|].
        intros c [<-|[<-|[]]]; (split; [intros a b; do 3 (try destruct a as [|? a]); cbn; discriminate|unfold a_coordinate; cbn; intuition discriminate]).
Qed.
Notation gf_construct := (construct_every (fun q => q) (fun q => 1 - q)%Q (fun q => q) (fun _ _ x y => (x, y)) gf_noise boxes edge_boxes (fun q => q) (fun q => q) vs_csv vs_nc (fun _ => Err FileNotFoundError) tab_shapes).
(** The hypotheses hold; all fields stand in the cells. *)
Example C95_case :
  noisy gf_noise /\ grows boxes /\ lawful boxes (Q * Q) in_boxes /\ rectangles boxes in_boxes /\ in_world (o := boxes) in_boxes mix_bounds /\
  validate_mesh_config (fun _ => None) gf_config = Ok tt /\ says gf_config gf_settings /\ from_json false 0 gf_config = Ok mix_bounds /\ admissible mix_bounds 10 10 /\
  (exists ss0, map (labels boxes) ss0 = gf_labels /\ labels_apart boxes ss0 /\ Forall2 gf_described (s_loaders gf_settings) ss0) /\
  exists em, generate (fun _ => None) false 0 (fun _ => []) (fun _ => false) gf_construct 100 gf_config = Ok em /\
    map (fun c => (e_id c, map fst (e_data c))) (em_cells em) = map (fun i => (i, List.concat gf_labels)) [2; 3; 4; 5; 6; 7; 8; 9] /\
    map (fun c => map (fun kv => match snd kv with JNum (Some q) => Qred q | _ => -1 end) (e_data c))%Q (em_cells em) =
      [[1; 55#8; 65#64; 23#64]; [1; 35#4; 49#32; 7#32]; [1#2; 55#8; 65#64; 23#64]; [1#2; 5; 1#2; 1#2]; [1; 65#8; 89#64; 15#64]; [1; 10; 2; 0]; [1#2; 65#8; 89#64; 15#64]; [1#2; 25#4; 25#32; 15#32]]%Q.
Proof.
  split; [exact gf_noisy|]. split; [exact boxes_grow|]. split; [exact boxes_lawful|]. split; [exact boxes_rectangles|]. split; [exact PropsWhole.wh_world|].
  split; [vm_compute; reflexivity|]. split; [exact gf_says|]. split; [vm_compute; reflexivity|]. split; [|split; [exact gf_fields|]].
  - split; [|split; [reflexivity|split; [reflexivity|]]].
    + split; [cbn; lra|]. right. do 2 eexists. split; [reflexivity|]. discriminate.
    + intros [H _]. cbn in H. lra.
  - eexists. split; [vm_compute; reflexivity|]. split; [vm_compute; reflexivity|]. vm_compute. reflexivity.
Qed.

(** Fields whose parameters are left to their defaults (finding): the configuration is
    valid, building fails, "binary" being required of both scalar fields by the factory
    though one of its values is in the name. *)
Theorem C95_defaults_refuted : forall name, In name ["scalar_grf"; "binary_grf"] ->
  let cfg := tab_config [(name, [])] in
  validate_mesh_config (fun _ => None) cfg = Ok tt /\
  forall o edge glob ft sqrt dsin dcos cos sin noise proj read_csv open_nc read_table read_shapes fuel,
    generate (fun _ => None) false 0 glob ft (construct_every sqrt cos sin proj noise o edge dsin dcos read_csv open_nc read_table read_shapes) fuel cfg = Err AssertionError.
Proof.
  intros name I. repeat (destruct I as [<-|I]; [split; [vm_compute; reflexivity|intros; vm_compute; reflexivity]|]). destruct I.
Qed.
Print Assumptions C95_defaults_refuted.
