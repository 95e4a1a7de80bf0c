(** Trimming selects the points of the half-open cell; the live cells' subsets
    partition the data. *)
From Verif Require Import Base Geo Graph Cell Loaders Builder Spec MeshSpec DataSpec QLib CaseProofs SplitGeo Dict Rep SplitCore Invariant Grid Build Consequences Reach.
Open Scope Z_scope.

Lemma selected_filter {A} (P : A -> Prop) f l : (forall x, f x = true <-> P x) -> selected P l (filter f l).
Proof.
  intros H. induction l as [|x l IH]; cbn; [constructor|].
  destruct (f x) eqn:E; constructor; auto; [apply H; auto|]. intros C. apply H in C. congruence.
Qed.
Lemma selected_filter_in {A} (P : A -> Prop) f l : (forall x, In x l -> (f x = true <-> P x)) -> selected P l (filter f l).
Proof.
  intros H. induction l as [|x l IH]; cbn; [constructor|].
  assert (IH' : selected P l (filter f l)) by (apply IH; intros; apply H; right; auto).
  destruct (f x) eqn:E; constructor; auto; [apply H; auto; left; auto|].
  intros C. apply (H x (or_introl eq_refl)) in C. congruence.
Qed.
Lemma selected_unique {A} (P : A -> Prop) l l1 l2 : selected P l l1 -> selected P l l2 -> l1 = l2.
Proof.
  intros H. revert l2. induction H; intros l2 H2; inversion H2; subst; auto; try contradiction; f_equal; auto.
Qed.
Lemma selected_weaken {A} (P P' : A -> Prop) l l' : (forall x, In x l -> (P x <-> P' x)) -> selected P l l' -> selected P' l l'.
Proof.
  intros H S. induction S as [|x l l' Hx S IH|x l l' Hx S IH]; [constructor| |].
  - apply sel_take; [apply H; auto; left; auto|]. apply IH. intros; apply H; right; auto.
  - apply sel_skip; [intros C; apply Hx, H; auto; left; auto|]. apply IH. intros; apply H; right; auto.
Qed.
Lemma selected_twice {A} (P P' : A -> Prop) l l1 l2 : (forall x, P' x -> P x) ->
  selected P l l1 -> selected P' l1 l2 -> selected P' l l2.
Proof.
  intros H S. revert l2. induction S as [|x l l' Hx S IH|x l l' Hx S IH]; intros l2 S2; [auto| |].
  - inversion S2; subst; [apply sel_take|apply sel_skip]; auto.
  - apply sel_skip; auto.
Qed.
Lemma selected_In {A} (P : A -> Prop) l l' x : selected P l l' -> (In x l' <-> In x l /\ P x).
Proof.
  induction 1 as [|y l l' Hy S IH|y l l' Hy S IH]; cbn; [tauto| |].
  - rewrite IH. split; [intros [->|[]]; auto | intros [[->|] ?]; auto].
  - rewrite IH. split; [intros []; auto | intros [[->|] ?]; auto; contradiction].
Qed.

Lemma df_spatial_spec b p : (long_min b < long_max b)%Q ->
  df_spatial b p = true <-> mem (region b) (p_long p) (p_lat p).
Proof.
  intros H. unfold df_spatial, mem, region. destruct (qltb_spec (long_min b) (long_max b)); [|contradiction].
  cbn [x0 x1 y0 y1]. rewrite !andb_true_iff, !qltb_true, !qleb_true. tauto.
Qed.
Lemma xr_spatial_df b p : (long_min b < long_max b)%Q -> xr_spatial b p = df_spatial b p.
Proof.
  intros H. unfold df_spatial, xr_spatial. destruct (qltb_spec (long_min b) (long_max b)); [|contradiction].
  qsplit; auto.
Qed.
Lemma in_time_spec b p : times_ok (time_range b) -> in_time b p = true <-> on_date b p.
Proof.
  intros H. unfold in_time, on_date. destruct (p_time p) as [t|]; [|tauto].
  destruct H as [->|(t0 & t1 & -> & H)].
  - split; [discriminate|]. intros (t0 & t1 & E & _). discriminate.
  - rewrite andb_true_iff, !Z.leb_le. split; [eauto|]. intros (a & c & E & K). injection E as -> ->. auto.
Qed.

Lemma df_trim_selects b d : (long_min b < long_max b)%Q -> times_ok (time_range b) ->
  selected (belongs b) d (df_trim b d).
Proof.
  intros H T. apply selected_filter. intros p. unfold belongs.
  rewrite andb_true_iff, df_spatial_spec, in_time_spec by auto. tauto.
Qed.
Lemma xr_trim_rows_df b d : (long_min b < long_max b)%Q -> xr_trim_rows b d = df_trim b d.
Proof. intros H. apply filter_ext. intros p. rewrite xr_spatial_df; auto. Qed.

Theorem df_trims_exactly uid name agg min_dp sqrt : trims_exactly (scalar_df uid name agg min_dp sqrt).
Proof. intros b d. apply df_trim_selects. Qed.
Theorem xr_trims_exactly uid name agg min_dp sqrt : trims_exactly (scalar_xr uid name agg min_dp sqrt).
Proof. intros b d H T. cbn. rewrite xr_trim_rows_df by auto. apply df_trim_selects; auto. Qed.
Theorem vector_trims_exactly uid names agg min_dp whole sqrt : trims_exactly (vector_df uid names agg min_dp whole sqrt).
Proof. intros b d. apply df_trim_selects. Qed.

(** ** Partition of a list by pairwise exclusive predicates *)
Lemma selected_rest {A} (P f : A -> Prop) d l0 total : selected f d l0 -> selected P d total ->
  (forall x, f x -> P x) -> exists rest, selected (fun x => P x /\ ~ f x) d rest /\ Permutation (l0 ++ rest) total.
Proof.
  intros S0. revert total. induction S0 as [|x l l' Hx S IH|x l l' Hx S IH]; intros total St H.
  - inversion St; subst. exists []. split; [constructor|constructor].
  - inversion St as [|? ? t' Px St'|? ? ? Nx St']; subst; [|exfalso; auto].
    destruct (IH _ St' H) as (rest & Sr & Pr). exists rest. split; [apply sel_skip; tauto|]. cbn. constructor. auto.
  - inversion St as [|? ? t' Px St'|? ? ? Nx St']; subst; destruct (IH _ St' H) as (rest & Sr & Pr).
    + exists (x :: rest). split; [apply sel_take; auto|]. apply Permutation_sym, Permutation_cons_app, Permutation_sym. auto.
    + exists rest. split; [apply sel_skip; tauto|]. auto.
Qed.

Lemma partition_list {A} (ps : list ((A -> Prop) * list A)) : forall (P : A -> Prop) d total,
  (forall q, In q ps -> selected (fst q) d (snd q)) -> selected P d total ->
  (forall x, P x -> exists n q, nth_error ps n = Some q /\ fst q x) ->
  (forall q x, In q ps -> fst q x -> P x) ->
  (forall n n' q q' x, nth_error ps n = Some q -> nth_error ps n' = Some q' -> fst q x -> fst q' x -> n = n') ->
  Permutation (flat_map snd ps) total.
Proof.
  induction ps as [|[f l0] ps IH]; intros P d total Hs St Hex Hin Hun.
  - assert (E : total = []).
    { clear - St Hex. induction St as [|x l l' Hx S I|]; auto. destruct (Hex x Hx) as (n & q & E & _). destruct n; discriminate. }
    rewrite E. constructor.
  - cbn [flat_map snd].
    destruct (selected_rest P f d l0 total (Hs (f, l0) (or_introl eq_refl)) St) as (rest & Sr & Pr).
    { intros x Hx. apply (Hin (f, l0)); auto. left; auto. }
    eapply Permutation_trans; [|exact Pr]. apply Permutation_app_head.
    apply (IH (fun x => P x /\ ~ f x) d rest); auto.
    + intros q Hq. apply Hs. right; auto.
    + intros x [Px Nf]. destruct (Hex x Px) as ([|n] & q & E & Hq); cbn in E.
      * injection E as <-. contradiction.
      * eauto.
    + intros q x Hq Hx. split; [apply (Hin q); auto; right; auto|]. intros Hf.
      apply In_nth_error in Hq as (n & Hn). specialize (Hun 0%nat (S n) (f, l0) q x eq_refl Hn Hf Hx). discriminate.
    + intros n n' q q' x E E' Hx Hx'. specialize (Hun (S n) (S n') q q' x E E' Hx Hx'). lia.
Qed.

(** ** The subsets of a reachable mesh *)
Definition source_loader (k : nat) (srcs : list metadata) : option (loader * data) :=
  match nth_error srcs k with Some s => Some (m_loader s, m_subset s) | None => None end.

(** Every live cell's k-th subset is what belongs to it of the whole data set. *)
Definition subsets_ok (k : nat) (ld : loader) (d : data) (times : list Z) (m : mesh) : Prop :=
  forall i c, live_cell m i c ->
    time_range (cb_bounds c) = times /\
    exists s, nth_error (cb_sources c) k = Some s /\ m_loader s = ld /\ selected (belongs (cb_bounds c)) d (m_subset s).

Lemma map_meta_nth k (srcs : list metadata) s b : nth_error srcs k = Some s ->
  nth_error (child_sources b srcs) k = Some (mkMeta (m_loader s) (m_conds s) (m_fill s) (l_trim (m_loader s) b (m_subset s))).
Proof. intros H. unfold child_sources. rewrite nth_error_map, H. auto. Qed.

Lemma on_date_same b b' p : time_range b = time_range b' -> on_date b p <-> on_date b' p.
Proof. intros E. unfold on_date. rewrite E. tauto. Qed.

Lemma quarter_belongs q b k p : proper (region b) -> quarter q (region b) (region k) -> time_range k = time_range b ->
  belongs k p -> belongs b p.
Proof.
  intros Pr Q T [M D]. split; [eapply quarter_mem; eauto|]. eapply on_date_same; [|exact D]. auto.
Qed.

Lemma split_subsets k ld d times m i m' : mesh_inv m -> split_and_replace m i = Ok m' ->
  trims_exactly ld -> times_ok times -> subsets_ok k ld d times m -> subsets_ok k ld d times m'.
Proof.
  intros Inv E Tr Tt S. destruct (split_step _ _ _ Inv E) as (c & kidc & Li & I' & SR & _).
  intros j x Hj. apply (after_split _ _ _ _ _ Inv Li SR) in Hj as [[Hj _]|(q & -> & ->)].
  - eapply S; eauto.
  - destruct SR as (_ & _ & Hk). destruct (Hk q) as (_ & _ & _ & K4 & K5 & K6 & K7).
    destruct (S i c Li) as (Tc & s & Es & El & Ss). split; [congruence|].
    rewrite K4. rewrite (map_meta_nth k _ s _ Es). eexists. split; [reflexivity|]. cbn [m_loader m_subset]. split; auto.
    pose proof (live_region m Inv i c Li) as Pc.
    eapply selected_twice; [|exact Ss|].
    + intros p. apply (quarter_belongs q); auto.
    + rewrite El. apply Tr; [|rewrite K5, Tc; auto]. destruct K6 as ((R1 & _) & _). auto.
Qed.

Lemma splits_subsets k ld d times m m' : mesh_inv m -> splits m m' -> trims_exactly ld -> times_ok times ->
  subsets_ok k ld d times m -> subsets_ok k ld d times m'.
Proof.
  intros Inv S Tr Tt H. induction S as [|m m1 m2 i S IH E]; auto.
  apply (split_subsets k ld d times m1 i m2); auto. eapply splits_inv; eauto.
Qed.

Lemma build_subsets b cw ch srcs m k s : admissible b cw ch -> build_mesh b cw ch srcs = Ok m ->
  nth_error srcs k = Some s -> trims_exactly (m_loader s) ->
  subsets_ok k (m_loader s) (m_subset s) (time_range b) m.
Proof.
  intros A E Es Tr. destruct (build_facts _ _ _ _ _ A E) as (R & C & HR0 & HC0 & HC & HR & H3 & I0 & G0 & C0).
  intros i c L. pose proof L as L'. unfold live_cell in L. rewrite C0 in L. rewrite !nth_error_map in L.
  destruct (nth_error (seq _ _) i) as [n|] eqn:En; [|discriminate]. cbn in L. injection L as Ec.
  assert (Tc : time_range (cb_bounds c) = time_range b) by (rewrite <- Ec; reflexivity).
  split; auto.
  assert (Esrc : cb_sources c = initialize_meta_data_subsets (cb_bounds c) srcs) by (rewrite <- Ec; reflexivity).
  rewrite Esrc. unfold initialize_meta_data_subsets. rewrite nth_error_map, Es. cbn [option_map]. eexists. split; [reflexivity|].
  cbn [m_loader m_subset]. split; auto.
  apply Tr.
  - destruct I0 as (I1 & _). destruct (I1 _ _ L') as (_ & (Rg & _) & _). apply Rg.
  - rewrite Tc. apply A.
Qed.

Theorem reachable_subsets b cw ch srcs m k s : admissible b cw ch -> reachable b cw ch srcs m ->
  nth_error srcs k = Some s -> trims_exactly (m_loader s) ->
  subsets_ok k (m_loader s) (m_subset s) (time_range b) m.
Proof.
  intros A (m0 & E & S) Es Tr. destruct (build_facts _ _ _ _ _ A E) as (R & C & _ & _ & _ & _ & _ & I0 & _).
  eapply splits_subsets; eauto; [apply A|]. eapply build_subsets; eauto.
Qed.

Lemma flat_map_pairs {A B C} (l : list A) (f : A -> B) (g : A -> list C) :
  flat_map snd (map (fun a => (f a, g a)) l) = flat_map g l.
Proof. induction l; cbn; congruence. Qed.

Definition cell_pred (o : option cellbox) : point -> Prop :=
  match o with Some c => belongs (cb_bounds c) | None => fun _ => False end.
Definition cell_subset (k : nat) (o : option cellbox) : data :=
  match o with Some c => subset_of k c | None => [] end.

Lemma selected_none {A} (d : list A) : selected (fun _ => False) d [].
Proof. induction d; [constructor|apply sel_skip; auto]. Qed.

Theorem data_partition b cw ch srcs m k s total : admissible b cw ch -> reachable b cw ch srcs m ->
  nth_error srcs k = Some s -> trims_exactly (m_loader s) ->
  selected (belongs b) (m_subset s) total ->
  Permutation (all_subsets k m) total.
Proof.
  intros A Rm Es Tr St. pose proof (reachable_subsets b cw ch srcs m k s A Rm Es Tr) as Sub.
  destruct (reachable_tiles b cw ch srcs m A Rm) as [(T1 & T2 & T3) _].
  change (all_subsets k m) with (flat_map (cell_subset k) (cells m)).
  rewrite <- (flat_map_pairs (cells m) cell_pred (cell_subset k)).
  apply (partition_list _ (belongs b) (m_subset s)); auto.
  - intros q Hq. apply in_map_iff in Hq as (o & <- & Ho). cbn [fst snd]. apply In_nth_error in Ho as (i & Hi).
    destruct o as [c|]; cbn [cell_pred cell_subset]; [|apply selected_none].
    destruct (Sub i c Hi) as (_ & s' & E1 & _ & E3). unfold subset_of. rewrite E1. auto.
  - intros p [M D]. destruct (T1 _ _ M) as (i & c & L & Mc). exists i, (cell_pred (Some c), cell_subset k (Some c)).
    rewrite nth_error_map. unfold live_cell in L. rewrite L. split; auto. cbn. split; auto.
    eapply on_date_same; [|exact D]. apply (Sub i c L).
  - intros q p Hq. apply in_map_iff in Hq as (o & <- & Ho). cbn [fst]. apply In_nth_error in Ho as (i & Hi).
    destruct o as [c|]; cbn [cell_pred]; [|tauto]. intros [M D]. split; [eapply T2; eauto; exact Hi|].
    eapply on_date_same; [|exact D]. symmetry. apply (Sub i c Hi).
  - intros n n' q q' p E E' H H'. rewrite nth_error_map in E, E'.
    destruct (nth_error (cells m) n) as [[c|]|] eqn:L; cbn in E; try discriminate; injection E as <-; cbn in H; try tauto.
    destruct (nth_error (cells m) n') as [[c'|]|] eqn:L'; cbn in E'; try discriminate; injection E' as <-; cbn in H'; try tauto.
    destruct H as [M _], H' as [M' _]. eapply T3; eauto.
Qed.

Lemma quarter_unique q q' c k k' x y : quarter q c k -> quarter q' c k' -> mem k x y -> mem k' x y -> q = q'.
Proof. unfold mem. destruct q, q'; unfold quarter; intros; auto; exfalso; lra. Qed.

(** Splitting one cell partitions its data. *)
Theorem split_partitions k ld d times m i m' c : mesh_inv m -> split_and_replace m i = Ok m' -> live_cell m i c ->
  trims_exactly ld -> times_ok times -> subsets_ok k ld d times m ->
  exists kids, map Some kids = skipn (List.length (cells m)) (cells m') /\ List.length kids = 4%nat /\
    Permutation (flat_map (subset_of k) kids) (subset_of k c).
Proof.
  intros Inv E Li Tr Tt S. destruct (split_step _ _ _ Inv E) as (c' & kidc & Li' & I' & SR & _).
  assert (c' = c) by (unfold live_cell in *; congruence). subst c'.
  pose proof (split_subsets k ld d times m i m' Inv E Tr Tt S) as S'.
  pose proof (live_region m Inv i c Li) as Pc. pose proof SR as SR0.
  destruct SR as (Ec & _ & Hk). exists (map kidc quads). split; [|split; [reflexivity|]].
  - rewrite Ec.
    assert (Hi : (i < List.length (cells m))%nat) by (apply nth_error_Some; unfold live_cell in Li; congruence).
    assert (X : forall (l1 l2 : list (option cellbox)) j, (j < List.length l1)%nat -> skipn (List.length l1) (list_set (l1 ++ l2) j None) = l2).
    { clear. induction l1 as [|x l1 IH]; intros l2 [|j] Hj; cbn in *; try lia.
      - clear IH Hj. induction l1; cbn; auto.
      - apply IH. lia. }
    rewrite X; auto.
  - assert (Ks : forall q, exists s, nth_error (cb_sources (kidc q)) k = Some s /\ selected (belongs (cb_bounds (kidc q))) d (m_subset s)).
    { intros q. destruct (S' (List.length (cells m) + qpos q)%nat (kidc q)) as (_ & s & E1 & _ & E3); eauto.
      apply (after_split _ _ _ _ _ Inv Li SR0). right. eauto. }
    destruct (S i c Li) as (Tc & s & Es & El & Ss).
    rewrite <- (flat_map_pairs (map kidc quads) (fun x => belongs (cb_bounds x)) (subset_of k)).
    apply (partition_list _ (belongs (cb_bounds c)) d).
    + intros x Hx. apply in_map_iff in Hx as (y & <- & Hy). apply in_map_iff in Hy as (q & <- & _). cbn [fst snd].
      destruct (Ks q) as (s' & E1 & E2). unfold subset_of. rewrite E1. auto.
    + unfold subset_of. rewrite Es. auto.
    + intros p [M D]. destruct (quarter_cover (fun q => region (cb_bounds (kidc q))) (region (cb_bounds c)) (p_long p) (p_lat p)) as (q & Hq); auto.
      { intros q. apply (Hk q). }
      exists (qpos q), (belongs (cb_bounds (kidc q)), subset_of k (kidc q)). split; [destruct q; reflexivity|].
      cbn. split; auto. eapply on_date_same; [|exact D]. apply (Hk q).
    + intros x p Hx. apply in_map_iff in Hx as (y & <- & Hy). apply in_map_iff in Hy as (q & <- & _). cbn [fst].
      apply (quarter_belongs q); auto; apply (Hk q).
    + intros n n' x x' p E1 E1' H H'.
      assert (Q : forall n x, nth_error (map (fun x => (belongs (cb_bounds x), subset_of k x)) (map kidc quads)) n = Some x ->
         exists q, n = qpos q /\ fst x = belongs (cb_bounds (kidc q))).
      { clear. intros z w H. revert H. generalize z w. clear. intros n x H. destruct n as [|[|[|[|n]]]]; cbn in H; try (destruct n; discriminate); injection H as <-.
        - exists qNW; auto. - exists qNE; auto. - exists qSW; auto. - exists qSE; auto. }
      destruct (Q n x E1) as (q & -> & Ex). destruct (Q n' x' E1') as (q' & -> & Ex').
      assert (B : belongs (cb_bounds (kidc q)) p) by (rewrite <- Ex; exact H).
      assert (B' : belongs (cb_bounds (kidc q')) p) by (rewrite <- Ex'; exact H'). destruct B as [M _], B' as [M' _].
      f_equal. exact (quarter_unique q q' _ _ _ _ _ (proj2 (proj2 (proj2 (proj2 (proj2 (proj2 (Hk q))))))) (proj2 (proj2 (proj2 (proj2 (proj2 (proj2 (Hk q'))))))) M M').
Qed.
