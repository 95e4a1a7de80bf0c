(** Values of the cells of a mesh over a region that crosses the antimeridian. *)
From Verif Require Import Base Geo Graph Cell Loaders Builder Env Spec MeshSpec GlobeSpec CrossSpec EnvSpec DataSpec QLib CaseProofs SplitGeo Dict Rep SplitCore Stage BuilderSplit Invariant Grid Build Consequences Reach MeshFacts TrimProofs AggProofs FillProofs Adaptive ChainProofs AdaptiveFacts GlobeProofs Cross CrossInv CrossBuild CrossSound StepInv PipeSpec PipeProofs CrossPipeSpec CrossData.
Open Scope Z_scope.

Definition xr_source (s : metadata) : Prop :=
  (exists uid name agg min_dp sqrt, In agg df_aggs /\ m_loader s = scalar_xr uid name agg min_dp sqrt) /\
  (m_fill s = FillParent \/ exists q, m_fill s = FillNum q).
Lemma xr_globe_ok s : xr_source s -> standard_longitudes (m_subset s) -> source_globe_ok s.
Proof.
  intros ((u & n & a & md & sq & _ & E) & _) S. split; auto. rewrite E. intros b d G T Sd. apply xr_trim_globe; auto.
Qed.

Lemma xr_value_whole ld b d d' : (exists uid name agg min_dp sqrt, In agg df_aggs /\ ld = scalar_xr uid name agg min_dp sqrt) ->
  globe_box b -> times_ok (time_range b) -> standard_longitudes d -> selected (belongs_globe b) d d' ->
  exists v, l_value ld b d' = Ok [(hd EmptyString (l_names ld), v)] /\ l_value ld b d = Ok [(hd EmptyString (l_names ld), v)].
Proof.
  intros (u & n & a & md & sq & Ha & ->) G T Sd S.
  assert (E : d' = xr_trim_rows b d) by (eapply selected_unique; [exact S|apply xr_trim_globe; auto]).
  cbn [l_value l_names hd scalar_xr]. unfold scalar_value_xr. subst d'.
  assert (I : xr_trim_rows b (xr_trim_rows b d) = xr_trim_rows b d) by apply filter_idem. rewrite I.
  destruct (value_total true sq a (column 0 (xr_trim_rows b d)) Ha) as (v & Ev). cbn in Ev. rewrite Ev. exists v. auto.
Qed.
Lemma globe_uids srcs times c : cell_globe_ok srcs times c -> map uid_of (cb_sources c) = map uid_of srcs.
Proof.
  intros (_ & _ & F). induction F as [|s0 s l l' [E _] F IH]; auto. cbn. f_equal; auto.
  unfold uid_of. injection E as -> _ _. auto.
Qed.

Lemma globe_cell_values srcs times c s0 k s : Forall (cell_globe_ok srcs times) (c :: ancestors c) -> times_ok times ->
  NoDup (map uid_of srcs) -> nth_error srcs k = Some s0 -> nth_error (cb_sources c) k = Some s ->
  xr_source s0 -> standard_longitudes (m_subset s0) ->
  l_names (m_loader s) = [source_name s0] /\ source_values c s = Ok [(source_name s0, Num (filled_value s0 c))].
Proof.
  intros Ch Tt Nd Hk Hs (Hl & Hf) St.
  assert (exists name, l_names (m_loader s0) = [name]) as (name & Hn) by (destruct Hl as (u & n & a & md & sq & _ & ->); cbn; eauto).
  assert (Sn : source_name s0 = name) by (unfold source_name; rewrite Hn; auto).
  assert (Hd : hd EmptyString (l_names (m_loader s0)) = name) by (rewrite Hn; auto).
  assert (At : forall a, In a (c :: ancestors c) -> exists sa, nth_error (cb_sources a) k = Some sa /\ meta_head sa = meta_head s0 /\
     find_source (l_uid (m_loader s0)) (cb_sources a) = Ok sa /\
     l_value (m_loader s0) (cb_bounds a) (m_subset sa) = Ok [(name, whole_value s0 a)]).
  { intros a Ha. rewrite Forall_forall in Ch. pose proof (Ch a Ha) as Da. destruct Da as (T1 & T2 & T4).
    destruct (Forall2_nth _ _ _ _ _ T4 Hk) as (sa & Esa & Hh & Hsel). exists sa. split; auto. split; auto. split.
    - replace (l_uid (m_loader s0)) with (uid_of sa); [|unfold uid_of; injection Hh as -> _ _; auto].
      eapply find_source_nth; eauto. rewrite (globe_uids srcs times a) by (apply Ch; auto). auto.
    - destruct (xr_value_whole (m_loader s0) (cb_bounds a) (m_subset s0) (m_subset sa) Hl T2) as (v & V1 & V2); auto; [congruence|].
      rewrite Hd in *. rewrite V1. unfold whole_value. rewrite V2, Sn. cbn. rewrite String.eqb_refl. auto. }
  destruct (At c (or_introl eq_refl)) as (s' & E1 & E2 & E3 & E4). rewrite Hs in E1. injection E1 as <-.
  injection E2 as L1 _ L3. rewrite Sn, L1. split; auto.
  unfold filled_value. destruct Hf as [Hf|(q & Hf)]; rewrite Hf.
  - apply (scalar_fill_parent c s name (whole_value s0)); rewrite ?L1, ?L3; auto.
    intros a Ha. destruct (At a (or_intror Ha)) as (sa & _ & _ & F1 & F2). eauto.
  - rewrite (scalar_fill_number c s name q (whole_value s0 c)); rewrite ?L1, ?L3; auto.
Qed.

Theorem globe_aggregate srcs times c : Forall (cell_globe_ok srcs times) (c :: ancestors c) -> times_ok times ->
  (forall s, In s srcs -> xr_source s /\ standard_longitudes (m_subset s)) -> NoDup (map uid_of srcs) ->
  exists ac, aggregate c = Ok ac /\ ac_bounds ac = cb_bounds c /\ ac_id ac = cb_id c /\
    forall n, sget (ac_data ac) n = merged_value n srcs c.
Proof.
  intros Ch Tt Hs Nd.
  destruct (aggregate_scalars c (map (fun s => (source_name s, filled_value s c)) srcs)) as (ac & E & E1 & E2 & E3).
  - inversion Ch as [|? ? (T1 & T2 & T4) _]; subst.
    assert (Len : List.length (cb_sources c) = List.length srcs) by (symmetry; eapply Forall2_len; eauto).
    assert (G : forall k s0 s, nth_error srcs k = Some s0 -> nth_error (cb_sources c) k = Some s ->
      l_names (m_loader s) = [source_name s0] /\ source_values c s = Ok [(source_name s0, Num (filled_value s0 c))]).
    { intros k s0 s H1 H2. destruct (Hs s0 (nth_error_In _ _ H1)) as [X Y]. apply (globe_cell_values srcs (time_range (cb_bounds c)) c s0 k s); auto. }
    clear - G Len. revert G Len. generalize (cb_sources c). induction srcs as [|s0 srcs IH]; intros [|s l] G Len; cbn in Len; try discriminate; constructor.
    + cbn. apply (G 0%nat); auto.
    + apply IH; [|lia]. intros k a a' H1 H2. apply (G (S k)); auto.
  - exists ac. split; auto. split; auto. split; auto. intros n. rewrite E3. apply merged_eq.
Qed.

(** ** The feeds *)
Section Feeds.
Variable sq : Q -> Q.
Lemma globe_feed_own k f c : usable f -> f_xr f = true -> standard_longitudes (f_data f) ->
  globe_box (cb_bounds c) -> times_ok (time_range (cb_bounds c)) ->
  globe_value sq f (cb_bounds c) (whole_value (feed_meta sq k f) c).
Proof.
  intros [A _] X S L T. exists (xr_trim_rows (cb_bounds c) (f_data f)). split; [apply xr_trim_globe; auto|].
  unfold whole_value. rewrite feed_source_name. cbn [feed_meta m_loader m_subset]. unfold feed_loader. rewrite X.
  cbn [l_value scalar_xr]. unfold scalar_value_xr.
  destruct (value_total true sq (f_agg f) (column 0 (xr_trim_rows (cb_bounds c) (f_data f))) A) as (v & E). cbn in E. rewrite E. cbn.
  rewrite String.eqb_refl. auto.
Qed.
Definition globe_cell (c : cellbox) : Prop := globe_box (cb_bounds c) /\ times_ok (time_range (cb_bounds c)).
Definition globe_feed (f : feed) : Prop := usable f /\ f_xr f = true /\ standard_longitudes (f_data f).
Lemma globe_feed_filled k f c : globe_feed f -> Forall globe_cell (c :: ancestors c) ->
  globe_filled sq f (map cb_bounds (c :: ancestors c)) (filled_value (feed_meta sq k f) c).
Proof.
  intros (U & X & S) Ch. unfold filled_value. cbn [m_fill feed_meta].
  assert (Ow : forall a, In a (c :: ancestors c) -> globe_value sq f (cb_bounds a) (whole_value (feed_meta sq k f) a)).
  { intros a Ha. rewrite Forall_forall in Ch. apply globe_feed_own; auto; apply Ch; auto. }
  destruct U as [_ [F|(q & F)]]; rewrite F.
  - clear Ch. induction (c :: ancestors c) as [|a l IH]; cbn [map first_known]; [apply gfilled_none; auto|].
    pose proof (Ow a (or_introl eq_refl)) as O. destruct (whole_value (feed_meta sq k f) a).
    + apply gfilled_own. auto.
    + apply gfilled_parent; auto. apply IH. intros; apply Ow; right; auto.
  - cbn [map]. pose proof (Ow c (or_introl eq_refl)) as O. destruct (whole_value (feed_meta sq k f) c).
    + apply gfilled_own. auto.
    + apply gfilled_number; auto.
Qed.
Lemma globe_feed_written fs k c n : (forall f, In f fs -> globe_feed f) -> Forall globe_cell (c :: ancestors c) ->
  globe_written sq fs (map cb_bounds (c :: ancestors c)) n (option_map jval_of (merged_value n (metas sq k fs) c)).
Proof.
  intros U Ch. exists (map (fun s => filled_value s c) (filter (fun s => String.eqb (source_name s) n) (metas sq k fs))). split.
  - revert k. induction fs as [|f fs IH]; intros k; cbn [filter metas map]; [constructor|]. rewrite feed_source_name.
    destruct (String.eqb (f_name f) n); [|apply IH; intros; apply U; right; auto].
    cbn [map]. constructor; [|apply IH; intros; apply U; right; auto]. apply globe_feed_filled; auto. apply U. left. auto.
  - unfold merged_value. destruct (filter _ (metas sq k fs)); reflexivity.
Qed.
Lemma globe_feed_source k f : globe_feed f -> xr_source (feed_meta sq k f) /\ standard_longitudes (m_subset (feed_meta sq k f)).
Proof.
  intros ([A F] & X & S). split; [|exact S]. split; [|exact F]. exists (Z.of_nat k), (f_name f), (f_agg f), (f_min f), sq. split; auto.
  cbn. unfold feed_loader. rewrite X. auto.
Qed.

Lemma globe_answers fs times c n h : cell_globe_ok (metas sq 0 fs) times c ->
  (answers c n h <-> globe_says_hom (firstn n fs) (cb_bounds c) h).
Proof.
  intros (_ & _ & F). apply (Forall2_firstn _ n) in F. rewrite metas_firstn in F. unfold answers, globe_says_hom. split.
  - intros (s & cd & Hs & Hc & ->). destruct (Forall2_in_r _ _ _ _ F Hs) as (s0 & H0 & Hh & Sel).
    destruct (metas_in sq _ _ _ H0) as (i & f & Hf & ->). injection Hh as E1 E2 _.
    exists f, cd, (m_subset s). split; auto. split; [rewrite <- E2; auto|]. split; [exact Sel|]. rewrite E1. apply feed_hom.
  - intros (f & cd & pts & Hf & Hc & Sel & ->). destruct (metas_in_inv sq _ _ Hf 0%nat) as (i & Hi).
    destruct (Forall2_in_l _ _ _ _ F Hi) as (s & Hs & Hh & Sel'). injection Hh as E1 E2 _.
    exists s, cd. split; auto. split; [rewrite E2; auto|]. rewrite E1, feed_hom. do 2 f_equal.
    eapply selected_fun; [exact Sel|exact Sel'].
Qed.
Lemma globe_wants fs times c n : cell_globe_ok (metas sq 0 fs) times c ->
  (wants_split c n <-> globe_ought_to_split (firstn n fs) (cb_bounds c)).
Proof. intros D. unfold wants_split, globe_ought_to_split. rewrite !(globe_answers fs times c n) by exact D. tauto. Qed.
End Feeds.
