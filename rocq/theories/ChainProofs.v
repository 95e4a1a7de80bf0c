(** What every live cell and all its ancestors hold of the data; aggregation of
    reachable meshes. *)
From Verif Require Import Base Geo Graph Cell Loaders Builder Spec MeshSpec DataSpec QLib CaseProofs SplitGeo Dict Rep SplitCore Invariant Grid Build Consequences Reach TrimProofs AggProofs FillProofs Adaptive.
Open Scope Z_scope.

Definition cell_data_ok (srcs : list metadata) (times : list Z) (c : cellbox) : Prop :=
  time_range (cb_bounds c) = times /\ proper (region (cb_bounds c)) /\ (long_min (cb_bounds c) < long_max (cb_bounds c))%Q /\
  Forall2 (fun s0 s => meta_head s = meta_head s0 /\ selected (belongs (cb_bounds c)) (m_subset s0) (m_subset s)) srcs (cb_sources c).

Definition chains (P : cellbox -> Prop) (m : mesh) : Prop :=
  forall i c, live_cell m i c -> Forall P (c :: ancestors c).

Lemma ancestors_kid k c : cb_parent k = Some c -> ancestors k = c :: ancestors c.
Proof. destruct k as [? ? ? ? o]. cbn. intros ->. auto. Qed.
Lemma ancestors_root c : cb_parent c = None -> ancestors c = [].
Proof. destruct c as [? ? ? ? o]. cbn. intros ->. auto. Qed.

Lemma Forall2_map_r {A B C} (R : A -> C -> Prop) (f : B -> C) l l' : Forall2 R l (map f l') <-> Forall2 (fun a b => R a (f b)) l l'.
Proof.
  revert l'. induction l as [|a l IH]; intros [|b l']; cbn; split; intros H; inversion H; subst; constructor; auto; apply IH; auto.
Qed.
Lemma Forall2_impl' {A B} (R R' : A -> B -> Prop) l l' : (forall a b, In a l -> R a b -> R' a b) -> Forall2 R l l' -> Forall2 R' l l'.
Proof. intros H F. induction F; constructor; auto; [apply H; auto; left; auto|]. apply IHF. intros; apply H; auto; right; auto. Qed.

Lemma split_chains srcs times m i m' : mesh_inv m -> split_and_replace m i = Ok m' ->
  times_ok times -> (forall s, In s srcs -> trims_exactly (m_loader s)) ->
  chains (cell_data_ok srcs times) m -> chains (cell_data_ok srcs times) m'.
Proof.
  intros Inv E Tt Tr Ch. destruct (split_step _ _ _ Inv E) as (c & kidc & Li & I' & SR & _).
  intros j x Hj. pose proof Hj as Hj'. apply (after_split _ _ _ _ _ Inv Li SR) in Hj as [[Hj _]|(q & -> & ->)]; [eapply Ch; eauto|].
  destruct SR as (_ & _ & Hk). destruct (Hk q) as (_ & _ & K3 & K4 & K5 & K6 & K7).
  rewrite (ancestors_kid _ _ K3). pose proof (Ch i c Li) as Fc. constructor; auto.
  inversion Fc as [|? ? (T1 & T2 & T3 & T4) _]; subst.
  split; [congruence|]. split; [eapply live_region; eauto|]. split; [destruct K6 as ((R1 & _) & _); auto|].
  rewrite K4. unfold child_sources. apply Forall2_map_r.
  eapply Forall2_impl'; [|exact T4]. cbn. intros s0 s Hs0 [E1 E2]. split; [exact E1|].
  eapply selected_twice; [|exact E2|].
  - intros p. apply (quarter_belongs q); auto.
  - injection E1 as L1 _ _. rewrite L1. apply Tr; auto; [destruct K6 as ((R1 & _) & _); auto|]. congruence.
Qed.

Lemma splits_chains srcs times m m' : mesh_inv m -> splits m m' ->
  times_ok times -> (forall s, In s srcs -> trims_exactly (m_loader s)) ->
  chains (cell_data_ok srcs times) m -> chains (cell_data_ok srcs times) m'.
Proof.
  intros Inv S Tt Tr H. induction S as [|m m1 m2 i S IH E]; auto.
  apply (split_chains srcs times m1 i m2); auto. eapply splits_inv; eauto.
Qed.

Lemma build_cell b cw ch srcs m i c : admissible b cw ch -> build_mesh b cw ch srcs = Ok m -> live_cell m i c ->
  time_range (cb_bounds c) = time_range b /\ cb_parent c = None /\ cb_depth c = 0 /\
  cb_sources c = initialize_meta_data_subsets (cb_bounds c) srcs /\
  mesh_inv m /\ (long_min (cb_bounds c) < long_max (cb_bounds c))%Q.
Proof.
  intros A E L. destruct (build_facts _ _ _ _ _ A E) as (R & C & HR0 & HC0 & HC & HR & H3 & I0 & G0 & C0).
  pose proof L as L'. unfold live_cell in L. rewrite C0 in L. rewrite !nth_error_map in L.
  destruct (nth_error (seq _ _) i) as [n|] eqn:En; [|discriminate]. cbn in L. injection L as Ec.
  split; [rewrite <- Ec; reflexivity|]. split; [rewrite <- Ec; reflexivity|]. split; [rewrite <- Ec; reflexivity|].
  split; [rewrite <- Ec; reflexivity|]. split; auto. destruct I0 as (I1 & _). destruct (I1 _ _ L') as (_ & (Rg & _) & _). apply Rg.
Qed.

Lemma Forall2_same {A} (R : A -> A -> Prop) l : (forall a, In a l -> R a a) -> Forall2 R l l.
Proof. intros H. induction l; constructor; [apply H; left; auto|]. apply IHl. intros; apply H; right; auto. Qed.

Lemma build_chains b cw ch srcs m : admissible b cw ch -> build_mesh b cw ch srcs = Ok m ->
  (forall s, In s srcs -> trims_exactly (m_loader s)) -> chains (cell_data_ok srcs (time_range b)) m.
Proof.
  intros A E Tr i c L. destruct (build_cell _ _ _ _ _ _ _ A E L) as (T & P & _ & Sr & I0 & Lo).
  rewrite (ancestors_root _ P). constructor; [|constructor].
  split; auto. split; [eapply live_region; eauto|]. split; auto. rewrite Sr. unfold initialize_meta_data_subsets.
  apply Forall2_map_r. apply Forall2_same. intros s Hs. cbn. split; auto. apply Tr; auto. rewrite T. apply A.
Qed.

Theorem reachable_chains b cw ch srcs m : admissible b cw ch -> reachable b cw ch srcs m ->
  (forall s, In s srcs -> trims_exactly (m_loader s)) -> chains (cell_data_ok srcs (time_range b)) m.
Proof.
  intros A (m0 & E & S) Tr. destruct (build_facts _ _ _ _ _ A E) as (R & C & _ & _ & _ & _ & _ & I0 & _).
  eapply splits_chains; eauto; [apply A|]. eapply build_chains; eauto.
Qed.

(** ** Finding the same loader in a parent *)
Definition uid_of (s : metadata) : Z := l_uid (m_loader s).
Lemma find_source_nth : forall srcs k s, NoDup (map uid_of srcs) -> nth_error srcs k = Some s ->
  find_source (uid_of s) srcs = Ok s.
Proof.
  induction srcs as [|a srcs IH]; intros [|k] s Nd H; cbn in H; try discriminate.
  - injection H as ->. cbn. unfold uid_of. rewrite Z.eqb_refl. auto.
  - inversion Nd as [|? ? N1 N2]; subst. cbn [find_source].
    destruct (Z.eqb_spec (l_uid (m_loader a)) (uid_of s)) as [Eu|]; [|eapply IH; eauto].
    exfalso. apply N1. unfold uid_of at 1. rewrite Eu. apply in_map. eapply nth_error_In; eauto.
Qed.
Lemma Forall2_nth {A B} (R : A -> B -> Prop) l l' k a : Forall2 R l l' -> nth_error l k = Some a ->
  exists b, nth_error l' k = Some b /\ R a b.
Proof. intros F. revert k. induction F; intros [|k] H'; cbn in *; try discriminate; [injection H' as <-; eauto|eauto]. Qed.
Lemma heads_uids srcs times c : cell_data_ok srcs times c -> map uid_of (cb_sources c) = map uid_of srcs.
Proof.
  intros (_ & _ & _ & F). induction F as [|s0 s l l' [E _] F IH]; auto. cbn. f_equal; auto.
  unfold uid_of. injection E as -> _ _. auto.
Qed.

(** ** Scalar loaders on a trimmed subset *)
Lemma filter_idem {A} (f : A -> bool) l : filter f (filter f l) = filter f l.
Proof. induction l as [|a l IH]; auto. cbn. destruct (f a) eqn:E; cbn; rewrite ?E, ?IH; auto. Qed.

Lemma df_trim_idem b d : df_trim b (df_trim b d) = df_trim b d.
Proof. apply filter_idem. Qed.

Lemma Forall2_len {A B} (R : A -> B -> Prop) l l' : Forall2 R l l' -> List.length l = List.length l'.
Proof. induction 1; cbn; congruence. Qed.

Definition scalar_loader (ld : loader) : Prop :=
  exists uid name agg min_dp sqrt, In agg df_aggs /\
    (ld = scalar_df uid name agg min_dp sqrt \/ ld = scalar_xr uid name agg min_dp sqrt).
Lemma scalar_trims ld : scalar_loader ld -> trims_exactly ld.
Proof. intros (u & n & a & md & sq & _ & [->| ->]); [apply df_trims_exactly|apply xr_trims_exactly]. Qed.

Lemma value_total (from_xr : bool) sqrt agg l : In agg df_aggs ->
  exists v, (if from_xr then value_xr sqrt agg true l else value_df sqrt agg true l) = Ok v.
Proof.
  intros H. cbn in H. destruct from_xr; unfold value_df, value_xr;
  decompose [or] H; subst; try contradiction; cbn [String.eqb Ascii.eqb Bool.eqb]; eauto;
  repeat (match goal with |- exists v, (if ?x then _ else _) = _ => destruct x; eauto end).
Qed.

Lemma scalar_value_whole ld b d d' : scalar_loader ld -> (long_min b < long_max b)%Q -> times_ok (time_range b) ->
  selected (belongs b) d d' ->
  exists v, l_value ld b d' = Ok [(hd EmptyString (l_names ld), v)] /\ l_value ld b d = Ok [(hd EmptyString (l_names ld), v)].
Proof.
  intros (u & n & a & md & sq & Ha & Hl) Lo Ti S.
  assert (E : d' = df_trim b d) by (eapply selected_unique; [exact S|apply df_trim_selects; auto]).
  destruct Hl as [->| ->]; cbn [l_value l_names hd scalar_df scalar_xr].
  - unfold scalar_value_df. subst d'. rewrite df_trim_idem.
    destruct (value_total false sq a (column 0 (df_trim b d)) Ha) as (v & Ev). cbn in Ev. rewrite Ev. exists v. auto.
  - unfold scalar_value_xr. subst d'. rewrite !xr_trim_rows_df by auto. rewrite df_trim_idem.
    destruct (value_total true sq a (column 0 (df_trim b d)) Ha) as (v & Ev). cbn in Ev. rewrite Ev. exists v. auto.
Qed.

Lemma scalar_names ld : scalar_loader ld -> exists n, l_names ld = [n].
Proof. intros (u & n & a & md & sq & _ & [->| ->]); cbn; eauto. Qed.

(** ** Aggregation of a cell of a reachable mesh *)
Lemma cell_values srcs times c s0 k s : Forall (cell_data_ok srcs times) (c :: ancestors c) -> times_ok times ->
  NoDup (map uid_of srcs) -> nth_error srcs k = Some s0 -> nth_error (cb_sources c) k = Some s -> scalar_source s0 ->
  l_names (m_loader s) = [source_name s0] /\ source_values c s = Ok [(source_name s0, Num (filled_value s0 c))].
Proof.
  intros Ch Tt Nd Hk Hs (Hl & Hf). change (scalar_loader (m_loader s0)) in Hl.
  destruct (scalar_names _ Hl) as (name & Hn). 
  assert (Sn : source_name s0 = name) by (unfold source_name; rewrite Hn; auto).
  assert (Hd : hd EmptyString (l_names (m_loader s0)) = name) by (rewrite Hn; auto).
  assert (At : forall a, In a (c :: ancestors c) -> exists sa, nth_error (cb_sources a) k = Some sa /\ meta_head sa = meta_head s0 /\
     find_source (l_uid (m_loader s0)) (cb_sources a) = Ok sa /\
     l_value (m_loader s0) (cb_bounds a) (m_subset sa) = Ok [(name, whole_value s0 a)]).
  { intros a Ha. rewrite Forall_forall in Ch. pose proof (Ch a Ha) as Da. destruct Da as (T1 & T2 & T3 & T4).
    destruct (Forall2_nth _ _ _ _ _ T4 Hk) as (sa & Esa & Hh & Hsel). exists sa. split; auto. split; auto. split.
    - replace (l_uid (m_loader s0)) with (uid_of sa); [|unfold uid_of; injection Hh as -> _ _; auto].
      eapply find_source_nth; eauto. rewrite (heads_uids srcs times a) by (apply Ch; auto). auto.
    - destruct (scalar_value_whole (m_loader s0) (cb_bounds a) (m_subset s0) (m_subset sa) Hl T3) as (v & V1 & V2); auto; [congruence|].
      rewrite Hd in *. rewrite V1. unfold whole_value. rewrite V2, Sn. cbn. rewrite String.eqb_refl. auto. }
  destruct (At c (or_introl eq_refl)) as (s' & E1 & E2 & E3 & E4). rewrite Hs in E1. injection E1 as <-.
  injection E2 as L1 _ L3. rewrite Sn, L1. split; auto.
  unfold filled_value. destruct Hf as [Hf|(q & Hf)]; rewrite Hf.
  - apply (scalar_fill_parent c s name (whole_value s0)); rewrite ?L1, ?L3; auto.
    intros a Ha. destruct (At a (or_intror Ha)) as (sa & _ & _ & F1 & F2). eauto.
  - rewrite (scalar_fill_number c s name q (whole_value s0 c)); rewrite ?L1, ?L3; auto.
Qed.

Lemma merged_eq n srcs c : merged n (map (fun s => (source_name s, filled_value s c)) srcs) = merged_value n srcs c.
Proof.
  unfold merged, merged_value, values_named.
  assert (E : map snd (filter (fun nv : string * option Q => String.eqb (fst nv) n) (map (fun s => (source_name s, filled_value s c)) srcs)) =
              map (fun s => filled_value s c) (filter (fun s => String.eqb (source_name s) n) srcs)).
  { induction srcs as [|s srcs IH]; auto. cbn [map filter fst]. destruct (String.eqb (source_name s) n); cbn [map snd]; congruence. }
  rewrite E. destruct (filter _ srcs); auto.
Qed.

Theorem aggregate_reachable b cw ch srcs m i c : admissible b cw ch -> reachable b cw ch srcs m ->
  (forall s, In s srcs -> scalar_source s) -> NoDup (map uid_of srcs) -> live_cell m i c ->
  exists ac, aggregate c = Ok ac /\ ac_bounds ac = cb_bounds c /\ ac_id ac = cb_id c /\
    forall n, sget (ac_data ac) n = merged_value n srcs c.
Proof.
  intros A Rm Hs Nd L.
  assert (Tr : forall s, In s srcs -> trims_exactly (m_loader s)).
  { intros s Hi. apply scalar_trims. destruct (Hs s Hi) as [X _]. exact X. }
  pose proof (reachable_chains b cw ch srcs m A Rm Tr i c L) as Ch.
  destruct (aggregate_scalars c (map (fun s => (source_name s, filled_value s c)) srcs)) as (ac & E & E1 & E2 & E3).
  - inversion Ch as [|? ? (T1 & T2 & T3 & T4) _]; subst.
    assert (Len : List.length (cb_sources c) = List.length srcs) by (symmetry; eapply Forall2_len; eauto).
    assert (G : forall k s0 s, nth_error srcs k = Some s0 -> nth_error (cb_sources c) k = Some s ->
      l_names (m_loader s) = [source_name s0] /\ source_values c s = Ok [(source_name s0, Num (filled_value s0 c))]).
    { intros k s0 s H1 H2. apply (cell_values srcs (time_range b) c s0 k s); auto; [apply A|]. apply Hs. eapply nth_error_In; eauto. }
    clear - G Len. revert G Len. generalize (cb_sources c). induction srcs as [|s0 srcs IH]; intros [|s l] G Len; cbn in Len; try discriminate; constructor.
    + cbn. apply (G 0%nat); auto.
    + apply IH; [|lia]. intros k a a' H1 H2. apply (G (S k)); auto.
  - exists ac. split; auto. split; auto. split; auto. intros n. rewrite E3. apply merged_eq.
Qed.

(** ** Building the environmental mesh *)
Definition live_list (m : mesh) : list cellbox :=
  flat_map (fun o => match o with Some c => [c] | None => [] end) (cells m).
Lemma live_list_In m c : In c (live_list m) <-> exists i, live_cell m i c.
Proof.
  unfold live_list. rewrite in_flat_map. split.
  - intros ([x|] & H & Hx); cbn in Hx; [destruct Hx as [->|[]]|destruct Hx]. apply In_nth_error in H as (i & H). exists i. auto.
  - intros (i & H). exists (Some c). split; [eapply nth_error_In; eauto|left; auto].
Qed.

Lemma mapM_Forall2 {A B} (f : A -> res B) l r : mapM f l = Ok r -> Forall2 (fun a b => f a = Ok b) l r.
Proof.
  revert r. induction l as [|a l IH]; intros r H; cbn in H.
  - injection H as <-. constructor.
  - destruct (f a) eqn:E; [|discriminate]. cbn in H. destruct (mapM f l) eqn:E2; [|discriminate]. injection H as <-.
    constructor; auto.
Qed.
Lemma mapM_total {A B} (f : A -> res B) l : (forall a, In a l -> exists b, f a = Ok b) -> exists r, mapM f l = Ok r.
Proof.
  induction l as [|a l IH]; intros H; cbn; eauto. destruct (H a (or_introl eq_refl)) as (b & ->). cbn.
  destruct IH as (r & ->); [intros; apply H; right; auto|]. cbn. eauto.
Qed.

Lemma aggregate_bounds c ac : aggregate c = Ok ac -> ac_bounds ac = cb_bounds c /\ ac_id ac = cb_id c.
Proof. unfold aggregate. destruct (foldM _ _ _); cbn; [|discriminate]. intros [= <-]. auto. Qed.
