(** From a configuration of a region that crosses the antimeridian to a mesh file
    and back (C89). *)
From Verif Require Import Base Geo Graph Cell Loaders Builder Env Spec MeshSpec GlobeSpec CrossSpec EnvSpec DataSpec QLib CaseProofs SplitGeo Dict Rep SplitCore Stage BuilderSplit Invariant Grid Build Consequences Reach MeshFacts TrimProofs AggProofs FillProofs Adaptive ChainProofs AdaptiveFacts GlobeProofs EnvSplit EnvInv EnvJson EnvLink WktProofs Cross CrossInv CrossBuild CrossSound StepInv Config ConfigSpec ConfigProofs Params Pipeline PipeSpec PipeProofs CrossPipeSpec CrossData CrossAgg CrossFile.
Open Scope string_scope.
Open Scope Z_scope.

Lemma boundary_eta b : mkB (lat_min b) (lat_max b) (long_min b) (long_max b) (time_range b) = b.
Proof. destruct b; reflexivity. Qed.

(** ** The builder *)
Section Builder.
Variables (b : boundary) (cw ch : Q) (srcs : list metadata) (m0 : mesh).
Hypothesis Cr : crossing b.
Hypothesis Hcw : (0 < cw)%Q.
Hypothesis Hch : (0 < ch)%Q.
Hypothesis Eb : build_mesh b cw ch srcs = Ok m0.
Notation Inv := (cross_sound (cross_off b) (get_width b) (region (frame_b b))).

Lemma cross_start : Inv m0.
Proof. apply exact_sound. exact (crossing_build_inv b cw ch srcs m0 Cr Hcw Hch Eb). Qed.
Lemma cross_step m i c : Inv m -> live_cell m i c -> exists m' kidc, split_and_replace m i = Ok m' /\ Inv m' /\ kids_of m i c m' kidc.
Proof. intros I L. destruct (sound_split _ _ _ m i c (crossing_width b Cr) I L) as (m' & kidc & E & I' & K & _). eauto. Qed.
Lemma cross_meaningful m i c : Inv m -> live_cell m i c -> meaningful (cb_bounds c).
Proof using Cr.
  intros (_ & u & (C1 & _) & _) L. destruct (C1 i c L) as (_ & _ & Fr & U).
  eapply frame_meaningful; eauto; [apply (crossing_width b Cr)|].
  destruct Fr as [([R1 R2] & _) _]. destruct U as ((A1 & A2) & _). lra.
Qed.
Lemma cross_rep m : Inv m -> exists f, rep KI (ng m) (live_of (cells m)) f.
Proof. intros (_ & u & _ & s & f & R & _). eauto. Qed.

Theorem cross_adaptive depth : (lat_min b < lat_max b)%Q -> exists fuel m', (forall fuel', (fuel <= fuel')%nat -> split_to_depth fuel' m0 depth = Ok m') /\
  Inv m' /\ splits m0 m' /\
  splits_by (may_split depth (List.length srcs)) m0 m' /\
  (forall i c, live_cell m' i c -> live_cell m0 i c \/ cb_depth c <= depth) /\
  (forall i c, live_cell m' i c -> cb_depth c < depth -> ~ wants_split c (List.length srcs)).
Proof.
  intros La. destruct (crossing_first b cw ch srcs m0 Cr Hcw Hch Eb La) as (c0 & L0).
  pose proof (gadaptive Inv cross_step (map meta_head srcs) m0 c0 depth cross_start (crossing_sources b cw ch srcs m0 Cr Hcw Hch Eb) L0) as H.
  rewrite map_length in H. exact H.
Qed.
Lemma cross_file m acs cfg : Inv m -> map ac_id acs = map cb_id (live_list m) -> map ac_bounds acs = map cb_bounds (live_list m) ->
  (forall ac, In ac acs -> plain_data (e_data (ecell_of ac))) -> c_region cfg = b ->
  exists em', load_from_json (to_json (env_of cfg m acs)) = Ok em' /\ em_bounds em' = b /\ em_config em' = cfg /\
    Forall2 same_cell (map ecell_of acs) (em_cells em') /\ em_graph em' = graph_to_json (ng m) /\
    cells_of m (em_cells em') /\ NoDup (map e_id (em_cells em')).
Proof using Cr.
  intros I E1 E2 Pd Ec.
  destruct (cells_trip (map ecell_of acs)) as (cs' & E & F).
  { intros c Hc. apply in_map_iff in Hc as (ac & <- & Hac). split; [|apply Pd; auto].
    cbn [e_bounds ecell_of]. assert (Hx : In (ac_bounds ac) (map cb_bounds (live_list m))) by (rewrite <- E2; apply in_map; auto).
    apply in_map_iff in Hx as (x & <- & Hx). apply live_list_In in Hx as (i & L). eapply cross_meaningful; eauto. }
  exists (mkEM b cs' (graph_to_json (ng m)) cfg). split.
  - unfold load_from_json, to_json, env_of. cbn [j_config j_cells j_graph em_config em_cells em_graph].
    destruct Cr as (V1 & (V2 & _) & (_ & V3) & _ & _ & V4). rewrite Ec, Boundary_ok by auto. cbn [bind]. rewrite E. cbn [bind]. rewrite boundary_eta. reflexivity.
  - cbn [em_bounds em_config em_cells em_graph]. split; auto. split; auto. split; auto. split; auto.
    eapply read_cells; eauto. eapply cross_ids. apply sound_cells. exact I.
Qed.
End Builder.

(** ** The configuration *)
Section Main.
Variables (files : string -> option json) (pad : bool) (now : Z) (glob : string -> list string) (ft : string -> bool).
Variable construct : nat -> string -> params -> boundary -> res (loader * data).
Variables (sq : Q -> Q) (cfg : json) (s : settings) (b : boundary) (fs : list feed).
Hypothesis Hv : validate_mesh_config files cfg = Ok tt.
Hypothesis Hs : says cfg s.
Hypothesis Hb : from_json pad now cfg = Ok b.
Hypothesis Cr : crossing b.
Hypothesis Hcw : (0 < s_width s)%Q.
Hypothesis Hch : (0 < s_height s)%Q.
Hypothesis Hlat : (s_lat_min s < s_lat_max s)%Q.
Hypothesis Hlat' : (s_lat_max s - s_lat_min s < 360)%Q.
Hypothesis Hp : 0 <= s_points s.
Hypothesis Hl : List.length fs = List.length (s_loaders s).
Hypothesis Hf : forall k src f, nth_error (s_loaders s) k = Some src -> nth_error fs k = Some f ->
  supplies glob construct sq b (s_points s) k src f.
Hypothesis Hn : forall f, In f fs -> ~ In (f_name f) own_keys.
Hypothesis Hx : forall f, In f fs -> f_xr f = true /\ standard_longitudes (f_data f).

Lemma cross_feeds f : In f fs -> globe_feed f.
Proof.
  intros H. destruct (Hx f H) as [X1 X2]. split; auto. apply In_nth_error in H as (k & H).
  destruct (nth_error (s_loaders s) k) as [src|] eqn:E; [eapply supplies_usable; eauto|].
  apply nth_error_None in E. assert (k < List.length fs)%nat by (apply nth_error_Some; congruence). lia.
Qed.
Lemma cross_valid : validate_bounds b (s_width s) (s_height s) = Ok tt.
Proof.
  pose proof Hv as V. apply (validate_says files cfg s Hs) in V as (_ & _ & A1 & A2).
  destruct (from_json_says pad now cfg s b Hs Hb) as (F1 & F2 & F3 & F4 & F5 & _).
  apply steps_checked; rewrite ?F1, ?F2, ?F3, ?F4; auto.
Qed.
Lemma cross_built srcs : exists m, build_mesh b (s_width s) (s_height s) srcs = Ok m.
Proof. destruct (crossing_build b _ _ srcs Cr Hcw Hch cross_valid) as (m & E & _). eauto. Qed.
Lemma cross_bounds_made : exists bs, initialize_bounds b (s_width s) (s_height s) = Ok bs.
Proof.
  destruct (cross_built []) as (m & E). unfold build_mesh in E. rewrite cross_valid in E. cbn [bind] in E.
  unfold initialize_cellboxes in E. destruct (initialize_bounds b (s_width s) (s_height s)) as [bs|]; [eauto|discriminate].
Qed.
Lemma cross_init : exists m, mesh_builder_init files pad now glob ft construct cfg = Ok (b, m, s_depth s) /\
  build_mesh b (s_width s) (s_height s) (metas sq 0 fs) = Ok m.
Proof.
  destruct (cross_built (metas sq 0 fs)) as (m & E). exists m. split; auto.
  unfold mesh_builder_init. rewrite Hv. cbn [bind]. rewrite Hb. cbn [bind].
  rewrite (says_width cfg s Hs), (says_height cfg s Hs). cbn [bind]. rewrite cross_valid. cbn [bind].
  destruct cross_bounds_made as (bs & ->). cbn [bind].
  destruct Hs as (o & r & d & p & -> & Er & _ & Ed & Fl & Ep & (vd & Vd1 & Vd2) & (vp & Vp1 & Vp2) & _).
  unfold splitting_entry, initialize_meta_data. rewrite (jget_at _ _ _ Ep), (jget_at _ _ _ Ed). cbn [bind as_arr].
  rewrite (jget_at _ _ _ Vp1), (jget_at _ _ _ Vd1). cbn [bind]. rewrite (whole_read _ _ Vp2), (whole_read _ _ Vd2). cbn [bind].
  rewrite (sources_read glob ft construct sq b (s_points s) d (s_loaders s) fs 0 Fl); auto.
  cbn [bind]. assert (X : s_points s <? 0 = false) by (apply Z.ltb_ge; auto). rewrite X.
  destruct bs; cbn [bind]; rewrite E; reflexivity.
Qed.

Theorem crossed : exists fuel em em',
  (forall fuel', (fuel <= fuel')%nat -> generate files pad now glob ft construct fuel' cfg = Ok em) /\
  load_from_json (to_json em) = Ok em' /\
  em_bounds em = b /\ em_bounds em' = b /\
  em_config em = mkCfg b (s_width s) (s_height s) (s_depth s) [] /\ em_config em' = em_config em /\
  Forall2 same_cell (em_cells em) (em_cells em') /\
  NoDup (map e_id (em_cells em')) /\ tiles_globe (region b) (em_cells em') /\
  lists_only_contacts touches_mod (em_cells em') (em_graph em') /\
  (s_depth s <= 0 -> lists_contacts touches_mod (em_cells em') (em_graph em')) /\
  (forall c, In c (em_cells em) -> globe_as_configured sq fs b (s_width s) (s_height s) (s_depth s) c).
Proof.
  destruct cross_init as (m & Ei & Eb).
  destruct (from_json_says pad now cfg s b Hs Hb) as (F1 & F2 & F3 & F4 & F5 & _).
  assert (Lb : (lat_min b < lat_max b)%Q) by (rewrite F1, F2; auto).
  set (srcs := metas sq 0 fs) in *.
  assert (Sc : forall x, In x srcs -> xr_source x /\ standard_longitudes (m_subset x)).
  { intros x Hi. destruct (metas_in _ _ _ _ Hi) as (i & f & Hif & ->). apply globe_feed_source, cross_feeds; auto. }
  assert (Sg : forall x, In x srcs -> source_globe_ok x). { intros x Hi. destruct (Sc x Hi). apply xr_globe_ok; auto. }
  destruct (metas_uids sq fs 0) as [Nu _]. fold srcs in Nu.
  destruct (cross_adaptive b _ _ srcs m Cr Hcw Hch Eb (s_depth s) Lb) as (fu & m' & Ea & I' & Sp & By & Dp & St).
  assert (Tt : times_ok (time_range b)) by apply Cr.
  pose proof (splits_chain_ok _ _ _ srcs b _ _ m m' (crossing_width b Cr) (cross_start b _ _ srcs m Cr Hcw Hch Eb) Sp Tt Sg
                (crossing_chain_ok b _ _ srcs m Cr Hcw Hch Eb Sg)) as Ck.
  assert (Ag : forall c, In c (live_list m') -> exists ac, aggregate c = Ok ac /\ ac_bounds ac = cb_bounds c /\ ac_id ac = cb_id c /\
    forall n, sget (ac_data ac) n = merged_value n srcs c).
  { intros c Hc. apply live_list_In in Hc as (i & L). destruct (Ck i c L) as (C1 & _). eapply globe_aggregate; eauto. }
  destruct (mapM_total aggregate (live_list m')) as (acs & Em). { intros c Hc. destruct (Ag c Hc) as (ac & H & _). eauto. }
  assert (Ee : forall fuel', (fu <= fuel')%nat -> build_environmental_mesh fuel' m (s_depth s) = Ok (m', acs)).
  { intros fuel' Hfu. unfold build_environmental_mesh. rewrite Ea by auto. cbn [bind]. fold (live_list m'). rewrite Em. reflexivity. }
  destruct (environmental_mesh_agrees _ _ _ _ _ (Ee fu ltac:(lia))) as (_ & Ids & Bds).
  assert (Fc : Forall2 (fun c ac => ac_id ac = cb_id c /\ ac_bounds ac = cb_bounds c /\
                         (forall n, sget (ac_data ac) n = merged_value n srcs c) /\ aggregate c = Ok ac) (live_list m') acs).
  { eapply Forall2_impl'; [|exact (mapM_Forall2 _ _ _ Em)]. cbn. intros c ac Hc H. destruct (Ag c Hc) as (ac' & H1 & H2 & H3 & H4).
    rewrite H in H1. injection H1 as <-. auto. }
  set (c1 := mkCfg b (s_width s) (s_height s) (s_depth s) []).
  assert (Pd : forall ac, In ac acs -> plain_data (e_data (ecell_of ac))).
  { intros ac Hac. destruct (Forall2_in_r _ _ _ _ Fc Hac) as (c & Hc & _ & _ & Hd & Ha). cbn [e_data ecell_of]. unfold plain_data.
    assert (Km : map fst (map (fun kv : string * aval => (fst kv, jval_of (snd kv))) (ac_data ac)) = map fst (ac_data ac)) by (rewrite map_map; reflexivity).
    rewrite Km. split; [eapply aggregate_nodup; eauto|].
    intros n Hin. apply sget_in in Hin. rewrite Hd in Hin. unfold merged_value in Hin.
    destruct (filter (fun x => String.eqb (source_name x) n) srcs) as [|x l] eqn:Ef'; [contradiction|].
    assert (Hi : In x (filter (fun x => String.eqb (source_name x) n) srcs)) by (rewrite Ef'; left; auto).
    apply filter_In in Hi as [Hi En]. apply String.eqb_eq in En. destruct (metas_in _ _ _ _ Hi) as (i & f & Hf' & ->).
    rewrite feed_source_name in En. subst n. apply Hn; auto. }
  destruct (cross_file b Cr m' acs c1 I' Ids Bds Pd eq_refl) as (em' & Ld & B1 & B2 & B3 & B4 & B5 & B6).
  destruct (cross_rep b m' I') as (f & Rp).
  exists fu, (env_of c1 m' acs), em'. split.
  { intros fuel' Hf'. unfold generate. rewrite Ei. cbn [bind]. rewrite (says_width cfg s Hs), (says_height cfg s Hs). cbn [bind].
    rewrite (Ee fuel') by lia. reflexivity. }
  split; auto. split; [reflexivity|]. split; auto. split; [reflexivity|]. split; auto. split; [exact B3|]. split; auto.
  split. { eapply read_tiles; [|exact B5]. apply cells_tiled; auto. apply sound_cells. exact I'. }
  rewrite B4. split. { eapply read_only; eauto. eapply sound_contacts; [apply (crossing_width b Cr)|exact I']. }
  split.
  { intros D0. assert (m' = m).
    { assert (X : forall P m1 m2, splits_by P m1 m2 -> forall Q' : cellbox -> Prop, (forall i c, live_cell m1 i c -> Q' c) -> (forall c, P c -> ~ Q' c) -> m2 = m1).
      { clear. intros P m1 m2 H. induction H as [|m1 m2 m3 i c H IH L Pc E]; intros Q' HQ HP; auto.
        pose proof (IH Q' HQ HP). subst m2. exfalso. apply (HP c Pc). eapply HQ; eauto. }
      apply (X _ _ _ By (fun c => cb_depth c = 0)).
      - intros i c L. apply (crossing_cell b _ _ srcs m i c Cr Hcw Hch Eb L).
      - intros c (D & _) D'. lia. }
    subst m'. eapply read_exact; eauto. eapply cross_graph_exact; [apply (crossing_width b Cr)|]. exact (crossing_build_inv b _ _ srcs m Cr Hcw Hch Eb). }
  cbn [env_of em_cells]. intros c Hc. apply in_map_iff in Hc as (ac & <- & Hac).
  destruct (Forall2_in_r _ _ _ _ Fc Hac) as (x & Hxl & _ & Hbx & Hd & _). apply live_list_In in Hxl as (i & Lx).
  destruct (Ck i x Lx) as (Ch & Ne & De). rewrite Forall_forall in Ch.
  assert (An : Forall (may_split (s_depth s) (List.length srcs)) (ancestors x)).
  { eapply (gby_ancestors _ (cross_step b Cr) _ m m'); eauto; [apply (cross_start b _ _ srcs m Cr Hcw Hch Eb)|]. intros j y Ly.
    destruct (crossing_cell b _ _ srcs m j y Cr Hcw Hch Eb Ly) as (_ & P & _). rewrite (ancestors_root _ P). constructor. }
  assert (Ls : List.length srcs = List.length fs) by apply metas_length. rewrite Ls in *.
  exists (map cb_bounds (ancestors x)). cbn [e_bounds e_data ecell_of]. rewrite Hbx.
  split; [exact Ne|]. rewrite map_length. split; [|split; [|split]].
  - rewrite <- De. destruct (Dp i x Lx) as [L|L]; [|lia]. destruct (crossing_cell b _ _ srcs m i x Cr Hcw Hch Eb L) as (_ & _ & -> & _). lia.
  - intros b' Hb'. apply in_map_iff in Hb' as (a & <- & Ia). rewrite Forall_forall in An. destruct (An a Ia) as (_ & n & _ & W).
    exists n. eapply globe_wants; [apply (Ch a); right; auto|exact W].
  - rewrite <- De. intros D O. apply (St i x Lx D). eapply globe_wants; [apply (Ch x); left; auto|].
    rewrite firstn_all. exact O.
  - intros n. rewrite sget_map_snd, Hd. change (cb_bounds x :: map cb_bounds (ancestors x)) with (map cb_bounds (x :: ancestors x)).
    apply globe_feed_written; [exact cross_feeds|]. apply Forall_forall. intros a Ia. destruct (Ch a Ia) as (Ta & La & _).
    split; auto. rewrite Ta. auto.
Qed.
End Main.

(** ** Any loaders *)
Definition nested_ok (b : boundary) (cw ch : Q) (m : mesh) : Prop :=
  forall i c, live_cell m i c -> time_range (cb_bounds c) = time_range b /\ globe_nested b cw ch (map cb_bounds (c :: ancestors c)).
Lemma splits_nested b cw ch m m' : crossing b -> cross_sound (cross_off b) (get_width b) (region (frame_b b)) m -> splits m m' ->
  nested_ok b cw ch m -> nested_ok b cw ch m'.
Proof.
  intros Cr S H N. induction H as [|m m1 m2 i H IH E]; auto. specialize (IH S N).
  pose proof (splits_sound _ _ _ _ _ (crossing_width b Cr) S H) as S1. destruct (split_some _ _ _ E) as (c & L).
  destruct (sound_split _ _ _ m1 i c (crossing_width b Cr) S1 L) as (mx & kidc & E' & S' & K & v & Fr & Uc & Uk).
  rewrite E in E'. injection E' as <-. intros j x Hj.
  apply (gafter m1 i c m2 kidc L K) in Hj as [[Hj _]|(q & -> & ->)]; [eapply IH; eauto|].
  destruct K as (_ & _ & Hk). destruct (Hk q) as (_ & _ & K3 & _ & K5). destruct (IH i c L) as (Tc & Nc).
  rewrite (ancestors_kid _ _ K3). split; [congruence|].
  cbn [map]. apply (gnested_quarter b cw ch q); [eapply kid_quarter; eauto|congruence|exact Nc].
Qed.
Lemma crossing_nested b cw ch srcs m : crossing b -> (0 < cw)%Q -> (0 < ch)%Q -> build_mesh b cw ch srcs = Ok m -> nested_ok b cw ch m.
Proof.
  intros Cr Hcw Hch E i c L. destruct (crossing_cell b cw ch srcs m i c Cr Hcw Hch E L) as (T & P & _ & _ & G).
  rewrite (ancestors_root _ P). split; auto. cbn [map]. apply gnested_grid; auto.
Qed.

Lemma written_cells m acs : map ac_bounds acs = map cb_bounds (live_list m) -> map ac_id acs = map cb_id (live_list m) ->
  Forall2 same_cell (map ecell_of acs) (map timeless (map ecell_of acs)).
Proof.
  intros _ _. induction acs as [|ac acs IH]; constructor; auto. split; [reflexivity|]. split; [reflexivity|]. split; [reflexivity|].
  exact (turned_refl (region (ac_bounds ac))).
Qed.
Theorem crossed_any files pad now glob ft construct fuel cfg em b cw ch :
  generate files pad now glob ft construct fuel cfg = Ok em ->
  from_json pad now cfg = Ok b -> region_num cfg "cell_width" = Ok cw -> region_num cfg "cell_height" = Ok ch ->
  crossing b -> (0 < cw)%Q -> (0 < ch)%Q -> (lat_min b < lat_max b)%Q ->
  em_bounds em = b /\ NoDup (map e_id (em_cells em)) /\ tiles_globe (region b) (em_cells em) /\
  (forall c, In c (em_cells em) -> exists l, globe_nested b cw ch (e_bounds c :: l)) /\
  lists_only_contacts touches_mod (em_cells em) (j_graph (to_json em)).
Proof.
  unfold generate, mesh_builder_init. intros E Hb Hw Hh Cr Hcw Hch La.
  destruct (validate_mesh_config files cfg) as [[]|]; [|discriminate]. cbn [bind] in E. rewrite Hb in E. cbn [bind] in E.
  rewrite Hw, Hh in E. cbn [bind] in E.
  destruct (validate_bounds b cw ch) as [[]|]; [|discriminate]. cbn [bind] in E.
  destruct (initialize_bounds b cw ch) as [bs|]; [|discriminate]. cbn [bind] in E.
  destruct (splitting_entry cfg "minimum_datapoints" 5) as [mp|]; [|discriminate]. cbn [bind] in E.
  destruct (initialize_meta_data glob ft construct cfg b mp) as [srcs|]; [|discriminate]. cbn [bind] in E.
  match type of E with bind ?x _ = _ => match x with bind ?y _ => destruct y as [[]|]; [|discriminate] end end.
  cbn [bind] in E. destruct (build_mesh b cw ch srcs) as [m|] eqn:Eb; [|discriminate]. cbn [bind] in E.
  destruct (splitting_entry cfg "split_depth" 0) as [depth|]; [|discriminate]. cbn [bind] in E.
  destruct (build_environmental_mesh fuel m depth) as [[m' acs]|] eqn:Ee; [|discriminate]. cbn [bind fst snd] in E. injection E as <-.
  destruct (environmental_mesh_agrees _ _ _ _ _ Ee) as (Es & Ids & Bds).
  destruct (cross_adaptive b cw ch srcs m Cr Hcw Hch Eb depth La) as (fu & m2 & Ea & I2 & Sp & _).
  assert (m2 = m'). { apply Ok_inj. rewrite <- (Ea (fu + fuel)%nat) by lia. apply (split_more fuel); auto. lia. }
  subst m2. pose proof (cross_start b cw ch srcs m Cr Hcw Hch Eb) as I0.
  pose proof (splits_nested b cw ch m m' Cr I0 Sp (crossing_nested b cw ch srcs m Cr Hcw Hch Eb)) as Ne.
  assert (F : cells_of m' (map ecell_of acs) /\ NoDup (map e_id (map ecell_of acs))).
  { destruct (read_cells m' acs (map timeless (map ecell_of acs))) as [(S1 & S2) N]; auto.
    { eapply cross_ids, sound_cells. exact I2. } { eapply written_cells; eauto. }
    split; [split|].
    - intros c Hc. destruct (S1 (timeless c)) as (i & x & L & E1 & T); [apply in_map; auto|]. eauto.
    - intros i x L. destruct (S2 i x L) as (c & Hc & E1 & T). apply in_map_iff in Hc as (c' & <- & Hc'). eauto.
    - rewrite map_map in N. exact N. }
  destruct F as [Sc Nd]. destruct (cross_rep b m' I2) as (f & Rp).
  cbn [env_of em_bounds em_cells em_graph c_region to_json j_graph]. split; [reflexivity|]. split; [exact Nd|]. split; [|split].
  - eapply read_tiles; [|exact Sc]. apply cells_tiled; auto. apply sound_cells. exact I2.
  - intros c Hc. apply in_map_iff in Hc as (ac & <- & Hac).
    assert (Hx : In (ac_bounds ac) (map cb_bounds (live_list m'))) by (rewrite <- Bds; apply in_map; auto).
    apply in_map_iff in Hx as (x & Ex & Hx). apply live_list_In in Hx as (i & Lx).
    destruct (Ne i x Lx) as [_ N]. exists (map cb_bounds (ancestors x)). cbn [e_bounds ecell_of]. rewrite <- Ex. exact N.
  - eapply read_only; eauto. eapply sound_contacts; [apply (crossing_width b Cr)|exact I2].
Qed.
