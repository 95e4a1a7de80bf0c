(** Cells of reachable meshes hold, of every source, the whole data trimmed to their bounds:
    for every kind of loader whose trimming can be done in steps. *)
From Verif Require Import Base Geo Graph Cell Loaders Builder Spec MeshSpec DataSpec QLib CaseProofs SplitGeo Dict Rep SplitCore Invariant Grid Build Consequences Reach TrimProofs AggProofs FillProofs Adaptive ChainProofs Env EnvSpec PyStr Config ConfigSpec Params PipeSpec PipeProofs VectorChain AdaptiveFacts EnvInv EnvMerge EnvJson EnvLink VecHomSpec VecHomProofs MixSpec MixProofs Lut LutFiles LutSources TableSpec.
Open Scope Z_scope.

Definition nests (ld : loader) : Prop :=
  forall a b d, within a b -> times_ok (time_range a) -> time_range a = time_range b -> l_trim ld a (l_trim ld b d) = l_trim ld a d.
Definition cell_cut (b : boundary) (srcs : list metadata) (c : cellbox) : Prop :=
  time_range (cb_bounds c) = time_range b /\ within (cb_bounds c) b /\
  Forall2 (fun s0 s => meta_head s = meta_head s0 /\ m_subset s = l_trim (m_loader s0) (cb_bounds c) (m_subset s0)) srcs (cb_sources c).

Lemma within_trans a b c : within a b -> within b c -> within a c.
Proof. unfold within. intros H K. decompose [and] H. decompose [and] K. repeat split; lra. Qed.
Lemma region_plain b : (long_min b < long_max b)%Q -> x1 (region b) = long_max b.
Proof. intros H. cbn. destruct (qltb_spec (long_min b) (long_max b)); [reflexivity|lra]. Qed.
Lemma quarter_within q a b : (long_min a < long_max a)%Q -> (long_min b < long_max b)%Q -> (lat_min b < lat_max b)%Q ->
  quarter q (region b) (region a) -> within a b.
Proof.
  intros La Lb Hb Q. unfold quarter, xmid, ymid in Q. rewrite (region_plain a La), (region_plain b Lb) in Q. cbn [region x0 y0 y1] in Q.
  unfold within. destruct q; decompose [and] Q; unfold Qdiv in *; change (/ 2)%Q with (1#2)%Q in *; repeat split; lra.
Qed.
Lemma within_mem a b x y : within a b -> mem (region a) x y -> mem (region b) x y.
Proof. intros H [M1 M2]. unfold within in H. unfold mem in *. rewrite region_plain in * by tauto. cbn [region x0 y0 y1] in *. lra. Qed.
Lemma trims_nests ld : trims_exactly ld -> nests ld.
Proof.
  intros T a b d W Ta E. pose proof W as (W1 & W2 & _). eapply selected_unique; [|apply T; auto].
  eapply selected_twice; [|apply (T b d W2)|apply T; auto]; [|rewrite <- E; exact Ta].
  intros p [H1 H2]. split; [eapply within_mem; eauto|]. eapply on_date_same; [|exact H2]. auto.
Qed.

Lemma split_cut b srcs m i m' : mesh_inv m -> split_and_replace m i = Ok m' ->
  times_ok (time_range b) -> (forall s, In s srcs -> nests (m_loader s)) ->
  chains (cell_cut b srcs) m -> chains (cell_cut b srcs) m'.
Proof.
  intros Inv E Tt Tr Ch. destruct (split_step _ _ _ Inv E) as (c & kidc & Li & I' & SR & _).
  intros j x Hj. pose proof Hj as Hj'. apply (after_split _ _ _ _ _ Inv Li SR) in Hj as [[Hj _]|(q & -> & ->)]; [eapply Ch; eauto|].
  destruct SR as (_ & _ & Hk). destruct (Hk q) as (_ & _ & K3 & K4 & K5 & K6 & K7).
  rewrite (ancestors_kid _ _ K3). pose proof (Ch i c Li) as Fc. constructor; auto.
  inversion Fc as [|? ? (T1 & T2 & T4) _]; subst.
  assert (W : within (cb_bounds (kidc q)) (cb_bounds c)).
  { apply (quarter_within q); auto; [destruct K6 as ((R1 & _) & _); auto|apply T2|apply T2]. }
  split; [congruence|]. split; [eapply within_trans; eauto|].
  rewrite K4. unfold child_sources. apply Forall2_map_r.
  eapply Forall2_impl'; [|exact T4]. cbn. intros s0 s Hs0 [E1 E2]. split; [exact E1|].
  injection E1 as L1 _ _. rewrite E2, L1. apply (Tr s0 Hs0); auto; congruence.
Qed.
Lemma splits_cut b srcs m m' : mesh_inv m -> splits m m' ->
  times_ok (time_range b) -> (forall s, In s srcs -> nests (m_loader s)) ->
  chains (cell_cut b srcs) m -> chains (cell_cut b srcs) m'.
Proof.
  intros Inv S Tt Tr H. induction S as [|m m1 m2 i S IH E]; auto.
  apply (split_cut b srcs m1 i m2); auto. eapply splits_inv; eauto.
Qed.
Lemma build_cut b cw ch srcs m : admissible b cw ch -> build_mesh b cw ch srcs = Ok m -> chains (cell_cut b srcs) m.
Proof.
  intros A E i c L. destruct (build_cell _ _ _ _ _ _ _ A E L) as (T & P & _ & Sr & I0 & Lo).
  assert (Rm : reachable b cw ch srcs m) by (exists m; split; auto; constructor).
  destruct (reachable_nested _ _ _ _ _ _ _ A Rm L) as [Ne _]. rewrite (ancestors_root _ P) in *. constructor; [|constructor].
  split; auto. split.
  - inversion Ne as [a G Ta|]; subst. destruct G as (x & y & (Px & Py) & G1 & G2 & G3 & G4 & G5 & G6).
    rewrite (region_plain _ Lo) in *. cbn [region x0 y0 y1] in *.
    assert (0 <= inject_Z x)%Q by (unfold Qle; cbn; lia). assert (0 <= inject_Z y)%Q by (unfold Qle; cbn; lia).
    pose proof A as (((V1 & V2 & V3 & V4) & V5) & A'). unfold within.
    assert (0 < cw /\ 0 < ch)%Q as [Cw Ch] by (split; apply A').
    assert (0 <= inject_Z x * cw)%Q by nra. assert (0 <= inject_Z y * ch)%Q by nra. repeat split; lra.
  - rewrite Sr. unfold initialize_meta_data_subsets. apply Forall2_map_r. apply Forall2_same. intros s Hs. cbn. split; auto.
Qed.
Theorem reachable_cut b cw ch srcs m : admissible b cw ch -> reachable b cw ch srcs m ->
  (forall s, In s srcs -> nests (m_loader s)) -> chains (cell_cut b srcs) m.
Proof.
  intros A (m0 & E & S) Tr. destruct (build_facts _ _ _ _ _ A E) as (R & C & _ & _ & _ & _ & _ & I0 & _).
  eapply splits_cut; eauto; [apply A|]. eapply build_cut; eauto.
Qed.

(** ** Sources of one value *)
Lemma cut_uids b srcs c : cell_cut b srcs c -> map uid_of (cb_sources c) = map uid_of srcs.
Proof.
  intros (_ & _ & F). induction F as [|s0 s l l' [E _] F IH]; auto. cbn. f_equal; auto.
  unfold uid_of. injection E as -> _ _. auto.
Qed.
(** The value of the trimmed data is that of the whole. *)
Definition single_like (b : boundary) (s : metadata) : Prop :=
  l_names (m_loader s) = [source_name s] /\ (m_fill s = FillParent \/ exists q, m_fill s = FillNum q) /\
  forall a, within a b -> time_range a = time_range b -> exists v,
    l_value (m_loader s) a (l_trim (m_loader s) a (m_subset s)) = Ok [(source_name s, v)] /\ l_value (m_loader s) a (m_subset s) = Ok [(source_name s, v)].
Lemma single_values b srcs c s0 k s : Forall (cell_cut b srcs) (c :: ancestors c) ->
  NoDup (map uid_of srcs) -> nth_error srcs k = Some s0 -> nth_error (cb_sources c) k = Some s -> single_like b s0 ->
  l_names (m_loader s) = [source_name s0] /\ source_values c s = Ok [(source_name s0, Num (filled_value s0 c))].
Proof.
  intros Ch Nd Hk Hs (Hn & Hf & Hl).
  assert (At : forall a, In a (c :: ancestors c) -> exists sa, nth_error (cb_sources a) k = Some sa /\ meta_head sa = meta_head s0 /\
     find_source (l_uid (m_loader s0)) (cb_sources a) = Ok sa /\
     l_value (m_loader s0) (cb_bounds a) (m_subset sa) = Ok [(source_name s0, whole_value s0 a)]).
  { intros a Ha. rewrite Forall_forall in Ch. pose proof (Ch a Ha) as Da. destruct Da as (T1 & T2 & T4).
    destruct (Forall2_nth _ _ _ _ _ T4 Hk) as (sa & Esa & Hh & Hsel). exists sa. split; auto. split; auto. split.
    - replace (l_uid (m_loader s0)) with (uid_of sa); [|unfold uid_of; injection Hh as -> _ _; auto].
      eapply find_source_nth; eauto. rewrite (cut_uids b srcs a) by (apply Ch; auto). auto.
    - destruct (Hl (cb_bounds a) T2 T1) as (v & V1 & V2). rewrite Hsel, V1. unfold whole_value. rewrite V2. cbn. rewrite String.eqb_refl. auto. }
  destruct (At c (or_introl eq_refl)) as (s' & E1 & E2 & E3 & E4). rewrite Hs in E1. injection E1 as <-.
  injection E2 as L1 _ L3. rewrite L1. split; auto.
  unfold filled_value. destruct Hf as [Hf|(q & Hf)]; rewrite Hf.
  - apply (scalar_fill_parent c s (source_name s0) (whole_value s0)); rewrite ?L1, ?L3; auto.
    intros a Ha. destruct (At a (or_intror Ha)) as (sa & _ & _ & F1 & F2). eauto.
  - rewrite (scalar_fill_number c s (source_name s0) q (whole_value s0 c)); rewrite ?L1, ?L3; auto.
Qed.

(** ** Vectors *)
Lemma vector_values_cut b srcs c k s0 s : Forall (cell_cut b srcs) (c :: ancestors c) ->
  NoDup (map uid_of srcs) -> nth_error srcs k = Some s0 -> nth_error (cb_sources c) k = Some s -> vector_like (m_loader s0) -> m_fill s0 = FillParent ->
  l_names (m_loader s) = l_names (m_loader s0) /\
  exists v, source_values c s = Ok v /\ map fst v = l_names (m_loader s0) /\
    forall name, In name (l_names (m_loader s0)) -> sget v name = Some (Num (vec_value s0 name c)).
Proof.
  intros Ch Nd Hk Hs (N1 & N2 & Tr & Vl) Hf.
  assert (At : forall a, In a (c :: ancestors c) -> exists sa d, nth_error (cb_sources a) k = Some sa /\ meta_head sa = meta_head s0 /\
     find_source (l_uid (m_loader s0)) (cb_sources a) = Ok sa /\
     l_value (m_loader s0) (cb_bounds a) (m_subset sa) = Ok d /\ map fst d = l_names (m_loader s0) /\
     forall name, In name (l_names (m_loader s0)) -> sget d name = Some (component s0 name a)).
  { intros a Ha. rewrite Forall_forall in Ch. pose proof (Ch a Ha) as (T1 & T2 & T4).
    destruct (Forall2_nth _ _ _ _ _ T4 Hk) as (sa & Esa & Hh & Ed).
    destruct (Vl (cb_bounds a) (m_subset sa)) as (vs & Lv & Ex).
    exists sa, (combine (l_names (m_loader s0)) vs). split; auto. split; auto. split; [|split; auto; split].
    - replace (l_uid (m_loader s0)) with (uid_of sa); [|unfold uid_of; injection Hh as -> _ _; auto].
      eapply find_source_nth; eauto. rewrite (cut_uids b srcs a) by (apply Ch; auto). auto.
    - apply combine_fst; auto.
    - intros name Hin. unfold component. rewrite <- Ed, Ex.
      destruct (sget (combine (l_names (m_loader s0)) vs) name) as [v|] eqn:E; auto. exfalso.
      assert (In name (map fst (combine (l_names (m_loader s0)) vs))) as H by (rewrite combine_fst; auto).
      apply sget_keys in H as (v & H). congruence. }
  destruct (At c (or_introl eq_refl)) as (s' & d & E1 & E2 & E3 & E4 & E5 & E6). rewrite Hs in E1. injection E1 as <-.
  injection E2 as L1 _ L3. split; [rewrite L1; reflexivity|]. rewrite <- L1 in *.
  apply (vector_fill_parent c s d (component s0)); auto; try congruence.
  - intros name E. rewrite E in N2. cbn in N2. lia.
  - intros name a Hin Ha. destruct (At a (or_intror Ha)) as (sa & da & _ & _ & F1 & F2 & _ & F3). exists sa, da. split; auto.
Qed.

(** ** The built mesh *)
Definition cut_source (b : boundary) (s : metadata) : Prop :=
  nests (m_loader s) /\
  ((is_vec s = false /\ single_like b s) \/ (is_vec s = true /\ vector_like (m_loader s) /\ m_fill s = FillParent)).
Lemma aggregate_cut b cw ch srcs m i c : admissible b cw ch -> reachable b cw ch srcs m ->
  (forall s, In s srcs -> cut_source b s) -> NoDup (map uid_of srcs) -> apart srcs -> live_cell m i c ->
  exists ac, aggregate c = Ok ac /\ ac_bounds ac = cb_bounds c /\ ac_id ac = cb_id c /\ forall n, sget (ac_data ac) n = mixed_value n srcs c.
Proof.
  intros A Rm Hs Nd Ap L.
  assert (Tr : forall s, In s srcs -> nests (m_loader s)) by (intros s Hi; apply (Hs s Hi)).
  pose proof (reachable_cut b cw ch srcs m A Rm Tr i c L) as Ch.
  apply aggregate_mixed; [|exact Ap].
  inversion Ch as [|? ? (T1 & T2 & T4) _]; subst.
  assert (Len : List.length (cb_sources c) = List.length srcs) by (symmetry; eapply Forall2_len; eauto).
  assert (G : forall k s0 s, nth_error srcs k = Some s0 -> nth_error (cb_sources c) k = Some s -> contributes c s s0).
  { intros k s0 s H1 H2. destruct (Hs s0 (nth_error_In _ _ H1)) as (_ & [(V & Sc)|(V & Vl & Fp)]).
    - left. split; [exact V|]. split; [apply Sc|]. eapply single_values; eauto.
    - right. split; [exact V|]. pose proof Vl as (N1 & N2 & _). split; [exact N2|]. split; [exact N1|].
      eapply vector_values_cut; eauto. }
  clear - G Len. revert G Len. generalize (cb_sources c). induction srcs as [|s0 srcs IH]; intros [|s l] G Len; cbn in Len; try discriminate; constructor.
  - apply (G 0%nat); auto.
  - apply IH; [|lia]. intros k a a' H1 H2. apply (G (S k)); auto.
Qed.
Theorem environmental_cut b cw ch srcs m c0 depth : admissible b cw ch -> reachable b cw ch srcs m -> live_cell m 0 c0 ->
  (forall s, In s srcs -> cut_source b s) -> NoDup (map uid_of srcs) -> apart srcs ->
  exists fuel m' acs, (forall fuel', (fuel <= fuel')%nat -> build_environmental_mesh fuel' m depth = Ok (m', acs)) /\
    reachable b cw ch srcs m' /\
    Forall2 (fun c ac => ac_id ac = cb_id c /\ ac_bounds ac = cb_bounds c /\
                         forall n, sget (ac_data ac) n = mixed_value n srcs c) (live_list m') acs.
Proof.
  intros A Rm L0 Hs Nd Ap. destruct (adaptive b cw ch srcs m c0 depth A Rm L0) as (fuel & m' & E & Rm' & _).
  assert (Ag : forall c, In c (live_list m') -> exists ac, aggregate c = Ok ac /\ ac_bounds ac = cb_bounds c /\ ac_id ac = cb_id c /\
    forall n, sget (ac_data ac) n = mixed_value n srcs c).
  { intros c Hc. apply live_list_In in Hc as (i & L). eapply aggregate_cut; eauto. }
  destruct (mapM_total aggregate (live_list m')) as (acs & Ea). { intros c Hc. destruct (Ag c Hc) as (ac & H & _). eauto. }
  pose proof (mapM_Forall2 _ _ _ Ea) as F.
  exists fuel, m', acs. split.
  { intros fuel' Hf. unfold build_environmental_mesh. rewrite E by auto. cbn [bind]. fold (live_list m'). rewrite Ea. reflexivity. }
  split; auto. eapply Forall2_impl'; [|exact F]. cbn. intros c ac Hc H. destruct (Ag c Hc) as (ac' & H1 & H2 & H3 & H4).
  rewrite H in H1. injection H1 as <-. auto.
Qed.
