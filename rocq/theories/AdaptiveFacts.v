(** The statements of PropsAdaptive.v, assembled from the lemmas. *)
From Verif Require Import Base Geo Graph Cell Loaders Builder Spec MeshSpec DataSpec QLib CaseProofs SplitGeo Dict Rep SplitCore Invariant Grid Build Consequences Reach MeshFacts TrimProofs AggProofs FillProofs Adaptive ChainProofs.
Open Scope Z_scope.

Lemma splits_trans m0 m m' : splits m0 m -> splits m m' -> splits m0 m'.
Proof. intros S S'. induction S' as [|x y z i S' IH E]; auto. eapply splits_more; [apply IH; exact S|exact E]. Qed.
Lemma splits_sources hs m m' : mesh_inv m -> splits m m' -> sources_ok hs m -> sources_ok hs m'.
Proof.
  intros Inv S H. induction S as [|m m1 m2 i S IH E]; auto. apply (split_sources hs m1 i m2); auto. eapply splits_inv; eauto.
Qed.
Lemma reachable_sources b cw ch srcs m : admissible b cw ch -> reachable b cw ch srcs m -> sources_ok (map meta_head srcs) m.
Proof.
  intros A (m0 & E & S). destruct (build_facts _ _ _ _ _ A E) as (R & C & _ & _ & _ & _ & _ & I0 & _).
  eapply splits_sources; eauto. intros i c L. destruct (build_cell _ _ _ _ _ _ _ A E L) as (_ & _ & _ & Sr & _).
  rewrite Sr. unfold initialize_meta_data_subsets. rewrite map_map. apply map_ext. auto.
Qed.

Lemma reachable_depth b cw ch srcs m i c : admissible b cw ch -> reachable b cw ch srcs m -> live_cell m i c -> 0 <= cb_depth c.
Proof.
  intros A (m0 & E & S). destruct (build_facts _ _ _ _ _ A E) as (R & C & _ & _ & _ & _ & _ & I0 & _).
  assert (H0 : forall i c, live_cell m0 i c -> 0 <= cb_depth c).
  { intros j x L. destruct (build_cell _ _ _ _ _ _ _ A E L) as (_ & _ & -> & _). lia. }
  clear E. revert i c. induction S as [|m m1 m2 k S IH E]; auto. intros i c L.
  pose proof (splits_inv _ _ I0 S) as I1.
  destruct (split_step _ _ _ I1 E) as (c1 & kidc & Li & I' & SR & _).
  apply (after_split _ _ _ _ _ I1 Li SR) in L as [[L _]|(q & -> & ->)]; [eapply IH; eauto|].
  destruct SR as (_ & _ & Hk). destruct (Hk q) as (_ & -> & _). pose proof (IH I0 H0 _ _ Li). lia.
Qed.

Lemma splits_by_depth P m m' depth : mesh_inv m -> splits_by P m m' -> (forall c, P c -> cb_depth c < depth) ->
  forall i c, live_cell m' i c -> live_cell m i c \/ cb_depth c <= depth.
Proof.
  intros Inv S HP. induction S as [|m m1 m2 k x S IH Lx Px E]; auto. intros i c L.
  pose proof (splits_inv _ _ Inv (splits_by_splits _ _ _ S)) as I1.
  destruct (split_step _ _ _ I1 E) as (c1 & kidc & Li & I' & SR & _).
  assert (c1 = x) by (unfold live_cell in *; congruence). subst c1.
  apply (after_split _ _ _ _ _ I1 Li SR) in L as [[L _]|(q & -> & ->)]; [apply IH; auto|].
  right. destruct SR as (_ & _ & Hk). destruct (Hk q) as (_ & -> & _). apply HP in Px. lia.
Qed.

(** Who may be split. *)
Definition may_split (depth : Z) (nsrc : nat) (c : cellbox) : Prop :=
  cb_depth c < depth /\ exists n, (n <= nsrc)%nat /\ wants_split c n.

Lemma het_wants hs depth c : map meta_head (cb_sources c) = hs -> het_for hs depth c -> may_split depth (List.length hs) c.
Proof.
  intros E (D & n & Hn & S). split; auto. exists n. split; auto.
  rewrite should_split_ok in S by (rewrite <- (map_length meta_head), E; auto). injection S as S. apply decides_spec. auto.
Qed.

Lemma splits_by_het hs depth m m' : mesh_inv m -> sources_ok hs m -> splits_by (het_for hs depth) m m' ->
  splits_by (may_split depth (List.length hs)) m m'.
Proof.
  intros Inv So S. induction S as [|m m1 m2 k x S IH Lx Px E]; [constructor|].
  eapply by_more; [apply IH; auto|exact Lx| |exact E].
  apply (het_wants hs); auto. eapply (splits_sources hs m m1); eauto. eapply splits_by_splits; eauto.
Qed.

Theorem adaptive b cw ch srcs m c0 depth : admissible b cw ch -> reachable b cw ch srcs m -> live_cell m 0 c0 ->
  exists fuel m', (forall fuel', (fuel <= fuel')%nat -> split_to_depth fuel' m depth = Ok m') /\
    reachable b cw ch srcs m' /\
    splits_by (may_split depth (List.length srcs)) m m' /\
    (forall i c, live_cell m' i c -> live_cell m i c \/ cb_depth c <= depth) /\
    (forall i c, live_cell m' i c -> cb_depth c < depth ->
       should_split c (List.length srcs) = Ok false /\ ~ wants_split c (List.length srcs)).
Proof.
  intros A Rm L0. pose proof (reachable_inv _ _ _ _ _ A Rm) as [Inv _]. pose proof (reachable_sources _ _ _ _ _ A Rm) as So.
  destruct (sources_pass depth (map meta_head srcs) m c0 Inv So L0) as (fuel & m' & E & S & I' & So' & St).
  rewrite map_length in St. exists fuel, m'. split; auto. split.
  - destruct Rm as (m0 & E0 & S0). exists m0. split; auto. apply (splits_trans m0 m m'); auto. eapply splits_by_splits; eauto.
  - pose proof (splits_by_het _ depth m m' Inv So S) as S2. rewrite map_length in S2. split; auto. split.
    + apply (splits_by_depth _ m m' depth Inv S2). intros c [H _]. auto.
    + intros i c L D. pose proof (St i c L D) as N.
      assert (Ln : List.length (cb_sources c) = List.length srcs) by (rewrite <- (map_length meta_head), (So' i c L), map_length; auto).
      split.
      * rewrite should_split_ok by lia. fold (decides c (List.length srcs)). rewrite N. auto.
      * intros W. apply decides_spec in W. congruence.
Qed.

Lemma splits_by_none P m m' : mesh_inv m -> splits_by P m m' -> (forall i c, live_cell m i c -> ~ P c) -> m' = m.
Proof.
  intros Inv S H. induction S as [|m m1 m2 k x S IH Lx Px E]; auto. rewrite IH in Lx; auto. exfalso. eapply H; eauto.
Qed.

Theorem adaptive_idle b cw ch srcs m c0 depth : admissible b cw ch -> reachable b cw ch srcs m -> live_cell m 0 c0 ->
  depth <= 0 \/ (forall s, In s srcs -> m_conds s = []) ->
  exists fuel, forall fuel', (fuel <= fuel')%nat -> split_to_depth fuel' m depth = Ok m.
Proof.
  intros A Rm L0 H. destruct (adaptive b cw ch srcs m c0 depth A Rm L0) as (fuel & m' & E & _ & S & _).
  pose proof (reachable_inv _ _ _ _ _ A Rm) as [Inv _].
  assert (m' = m); [|subst; eauto]. eapply splits_by_none; eauto. intros i c L (D & n & _ & (s & cd & Hs & Hc & _) & _).
  destruct H as [H|H].
  - pose proof (reachable_depth _ _ _ _ _ _ _ A Rm L). lia.
  - pose proof (reachable_sources _ _ _ _ _ A Rm i c L) as Hh.
    assert (In s (cb_sources c)) by (rewrite <- (firstn_skipn n (cb_sources c)); apply in_or_app; auto).
    assert (Hm : In (meta_head s) (map meta_head srcs)) by (rewrite <- Hh; apply in_map; auto).
    apply in_map_iff in Hm as (s0 & E0 & I0). apply H in I0. injection E0 as _ E0 _. rewrite I0 in E0. rewrite <- E0 in Hc. destruct Hc.
Qed.

Theorem unsplit_unchanged b cw ch srcs m m' P i c : admissible b cw ch -> reachable b cw ch srcs m -> splits_by P m m' ->
  live_cell m i c -> live_cell m' i c \/ (nth_error (cells m') i = Some None).
Proof.
  intros A Rm S L. destruct (ids_never_reused b cw ch srcs m m' A Rm (splits_by_splits _ _ _ S)) as [_ H].
  assert (Hi : (i < List.length (cells m))%nat) by (apply nth_error_Some; unfold live_cell in L; congruence).
  destruct (H i Hi) as [E|E]; auto. left. unfold live_cell in *. congruence.
Qed.

Lemma first_cell b cw ch srcs m : admissible b cw ch -> build_mesh b cw ch srcs = Ok m -> (lat_min b < lat_max b)%Q ->
  exists c0, live_cell m 0 c0.
Proof.
  intros A E L. destruct (build_facts _ _ _ _ _ A E) as (R & C & HR0 & HC0 & HC & HR & H3 & I0 & G0 & C0).
  assert (R <> 0). { intros ->. change (inject_Z 0) with 0%Q in HR. lra. }
  unfold live_cell. rewrite C0.
  destruct (Z.to_nat R * Z.to_nat C)%nat as [|n] eqn:En.
  - exfalso. apply Nat.eq_mul_0 in En as [En|En]; lia.
  - cbn. eauto.
Qed.

(** Second call after cell 0 was split. *)
Theorem second_call fuel m depth : nth_error (cells m) 0 = Some None -> split_to_depth fuel m depth = Err AttributeError.
Proof. intros H. unfold split_to_depth. destruct (cells m) as [|o l]; [discriminate|]. cbn in H. injection H as ->. reflexivity. Qed.

(** ** The built mesh *)
Theorem environmental_mesh b cw ch srcs m c0 depth : admissible b cw ch -> reachable b cw ch srcs m -> live_cell m 0 c0 ->
  (forall s, In s srcs -> scalar_source s) -> NoDup (map uid_of srcs) ->
  exists fuel m' acs, (forall fuel', (fuel <= fuel')%nat -> build_environmental_mesh fuel' m depth = Ok (m', acs)) /\
    reachable b cw ch srcs m' /\
    Forall2 (fun c ac => ac_id ac = cb_id c /\ ac_bounds ac = cb_bounds c /\
                         forall n, sget (ac_data ac) n = merged_value n srcs c) (live_list m') acs /\
    NoDup (map ac_id acs) /\
    (forall k, In k (dkeys (ng m')) <-> exists ac, In ac acs /\ k = KI (ac_id ac)).
Proof.
  intros A Rm L0 Hs Nd. destruct (adaptive b cw ch srcs m c0 depth A Rm L0) as (fuel & m' & E & Rm' & _).
  assert (Ag : forall c, In c (live_list m') -> exists ac, aggregate c = Ok ac /\ ac_bounds ac = cb_bounds c /\ ac_id ac = cb_id c /\
    forall n, sget (ac_data ac) n = merged_value n srcs c).
  { intros c Hc. apply live_list_In in Hc as (i & L). eapply aggregate_reachable; eauto. }
  destruct (mapM_total aggregate (live_list m')) as (acs & Ea). { intros c Hc. destruct (Ag c Hc) as (ac & H & _). eauto. }
  pose proof (mapM_Forall2 _ _ _ Ea) as F.
  assert (F2 : Forall2 (fun c ac => ac_id ac = cb_id c /\ ac_bounds ac = cb_bounds c /\
                         forall n, sget (ac_data ac) n = merged_value n srcs c) (live_list m') acs).
  { eapply Forall2_impl'; [|exact F]. cbn. intros c ac Hc H. destruct (Ag c Hc) as (ac' & H1 & H2 & H3 & H4).
    rewrite H in H1. injection H1 as <-. auto. }
  exists fuel, m', acs. split.
  { intros fuel' Hf. unfold build_environmental_mesh. rewrite E by auto. cbn [bind]. fold (live_list m'). rewrite Ea. reflexivity. }
  split; auto. split; auto.
  destruct (no_dangling b cw ch srcs m' A Rm') as (Ids & Keys & _).
  assert (Mi : map ac_id acs = map cb_id (live_list m')).
  { clear - F2. induction F2 as [|c ac l l' (H1 & _) F IH]; auto. cbn. congruence. }
  split.
  - rewrite Mi. unfold live_list, ids_are_positions, live_cell in *.
    assert (X : forall l off, (forall i c, nth_error l i = Some (Some c) -> cb_id c = Z.of_nat (off + i)) ->
       NoDup (map cb_id (flat_map (fun o => match o with Some c => [c] | None => [] end) l)) /\
       forall z, In z (map cb_id (flat_map (fun o => match o with Some c => [c] | None => [] end) l)) -> Z.of_nat off <= z).
    { clear. induction l as [|o l IH]; intros off H; [split; [constructor|intros z []]|].
      destruct (IH (S off)) as [N B]. { intros i c Hi. rewrite (H (S i) c Hi). f_equal. lia. }
      destruct o as [c|]; cbn [flat_map app map].
      - pose proof (H 0%nat c eq_refl) as Hc. split.
        + constructor; auto. intros Hin. apply B in Hin. lia.
        + intros z [<-|Hz]; [lia|]. apply B in Hz. lia.
      - split; auto. intros z Hz. apply B in Hz. lia. }
    apply (X (cells m') 0%nat). intros i c Hi. apply (Ids i c Hi).
  - intros k. rewrite Keys. split.
    + intros (i & c & L & ->). assert (Hc : In c (live_list m')) by (apply live_list_In; eauto).
      assert (Hz : In (cb_id c) (map ac_id acs)) by (rewrite Mi; apply in_map; auto).
      apply in_map_iff in Hz as (ac & E1 & E2). exists ac. split; auto. congruence.
    + intros (ac & H & ->). assert (Hz : In (ac_id ac) (map cb_id (live_list m'))) by (rewrite <- Mi; apply in_map; auto).
      apply in_map_iff in Hz as (c & E1 & E2). apply live_list_In in E2 as (i & L). exists i, c. split; auto. congruence.
Qed.

(** Without assumptions on the loaders: whatever is returned agrees. *)
Theorem environmental_mesh_agrees fuel m depth m' acs :
  build_environmental_mesh fuel m depth = Ok (m', acs) ->
  split_to_depth fuel m depth = Ok m' /\ map ac_id acs = map cb_id (live_list m') /\ map ac_bounds acs = map cb_bounds (live_list m').
Proof.
  intros H. unfold build_environmental_mesh in H. destruct (split_to_depth fuel m depth) as [m1|] eqn:E; [|discriminate].
  cbn [bind] in H. fold (live_list m1) in H. destruct (mapM aggregate (live_list m1)) as [l|] eqn:Ea; [|discriminate].
  injection H as <- <-. split; auto. pose proof (mapM_Forall2 _ _ _ Ea) as F.
  clear - F. induction F as [|c ac l l' H F [IH1 IH2]]; auto. destruct (aggregate_bounds _ _ H) as [E1 E2]. cbn. split; congruence.
Qed.

Lemma split_more fuel fuel' m depth m' : split_to_depth fuel m depth = Ok m' -> (fuel <= fuel')%nat ->
  split_to_depth fuel' m depth = Ok m'.
Proof.
  unfold split_to_depth. intros H Hf. destruct (py_nth (cells m) 0) as [[c|]|]; cbn [bind] in *; try discriminate.
  revert m H. generalize (seq 0 (List.length (cb_sources c))). induction l as [|k l IH]; intros m H; auto.
  cbn [foldM] in *. destruct (py_nth (cb_sources c) (Z.of_nat k)) as [s|]; cbn [bind] in *; try discriminate.
  destruct (m_conds s); [cbn [bind] in *; apply IH; exact H|].
  destruct (split_pass fuel m 0 (S k) depth) as [m1|] eqn:E; cbn [bind] in *; try discriminate.
  rewrite (split_pass_more _ _ _ _ _ _ E fuel' Hf). cbn [bind]. apply IH. exact H.
Qed.
Lemma Ok_inj {A} (a b : A) : Ok a = Ok b -> a = b.
Proof. congruence. Qed.
