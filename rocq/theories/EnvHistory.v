(** Sequences of refinements, updates and merges. *)
From Verif Require Import Base Geo Graph Cell Builder Env Spec MeshSpec EnvSpec QLib CaseProofs SplitGeo Dict Rep SplitCore Stage BuilderSplit Invariant Consequences EnvSplit EnvInv EnvMerge EnvJson EnvLink EnvQuery DataSpec.
Open Scope Z_scope.

Lemma split_while_esplits fuel lat long : forall m m', split_while fuel m lat long = Ok m' -> esplits m m'.
Proof.
  induction fuel as [|fuel IH]; intros m m'; cbn [split_while]; [discriminate|].
  unfold split_loc. destruct (query_index m lat long) as [i|]; [|discriminate]. cbn [bind].
  destruct (get_cellbox (em_cells m) i) as [c|]; [|discriminate]. cbn [bind].
  destruct (_ || _).
  - cbn [bind snd fst]. intros E. injection E as <-. constructor.
  - destruct (esplit_and_replace m (KS (e_id c))) as [m1|] eqn:E1; [|discriminate]. cbn [bind snd fst].
    intros E. apply IH in E. eapply esplits_trans; [|exact E]. econstructor; [constructor|exact E1].
Qed.
Lemma split_points_esplits fuel points : forall m m', split_points fuel m points = Ok m' -> esplits m m'.
Proof.
  unfold split_points. induction points as [|(lat, long) ps IH]; intros m m'; cbn [foldM fst snd].
  - intros E. injection E as <-. constructor.
  - destruct (query_inside_mesh m lat long); [|cbn [bind]; apply IH].
    destruct (split_while fuel m lat long) as [m1|] eqn:E1; [|discriminate]. cbn [bind]. intros E.
    eapply esplits_trans; [eapply split_while_esplits; exact E1|]. apply IH; auto.
Qed.

(** ** Updates *)
(** Same cells apart from their data. *)
Definition same_shape (m m' : emesh) : Prop :=
  em_bounds m' = em_bounds m /\ em_config m' = em_config m /\ em_graph m' = em_graph m /\
  map (fun c => (e_bounds c, e_id c)) (em_cells m') = map (fun c => (e_bounds c, e_id c)) (em_cells m).

Lemma shape_in m m' c' : same_shape m m' -> In c' (em_cells m') ->
  exists c, In c (em_cells m) /\ e_bounds c = e_bounds c' /\ e_id c = e_id c'.
Proof.
  intros (_ & _ & _ & E) H. assert (X : In (e_bounds c', e_id c') (map (fun c => (e_bounds c, e_id c)) (em_cells m))).
  { rewrite <- E. apply (in_map (fun c => (e_bounds c, e_id c))); auto. }
  apply in_map_iff in X as (c & Ec & Hc). exists c. injection Ec as <- <-. auto.
Qed.
Lemma shape_sym m m' : same_shape m m' -> same_shape m' m.
Proof. intros (? & ? & ? & ?). repeat split; auto. Qed.

Lemma shape_sound m m' : same_shape m m' -> sound_mesh m -> sound_mesh m'.
Proof.
  intros Sh (N & P & A & (L1 & L2 & L3 & L4)). pose proof (shape_in m m') as F. pose proof (shape_in m' m) as B.
  pose proof (shape_sym _ _ Sh) as Sh'. pose proof Sh as (_ & _ & Eg & Ec).
  split; [|split; [|split]].
  - replace (map e_id (em_cells m')) with (map snd (map (fun c => (e_bounds c, e_id c)) (em_cells m'))) by (rewrite map_map; reflexivity).
    rewrite Ec, map_map. exact N.
  - intros c Hc. destruct (F c Sh Hc) as (x & Hx & <- & _). auto.
  - intros c c' Hc Hc' Ne. destruct (F c Sh Hc) as (x & Hx & <- & E1). destruct (F c' Sh Hc') as (y & Hy & <- & E2).
    apply A; auto. congruence.
  - rewrite Eg. split; [|split; [|split]]; auto.
    + intros k. rewrite L2. split; intros (c & -> & Hc).
      * destruct (B c Sh' Hc) as (x & Hx & _ & E). exists x. rewrite E. auto.
      * destruct (F c Sh Hc) as (x & Hx & _ & E). exists x. rewrite E. auto.
    + intros c d Hc. destruct (F c Sh Hc) as (x & Hx & <- & <-). destruct (L3 x d Hx) as (l & E & Nl & Il).
      exists l. split; auto. split; auto. intros z. rewrite Il. split; intros (y & -> & Hy & T).
      * destruct (B y Sh' Hy) as (y' & Hy' & Eb & Ei). exists y'. rewrite Eb, Ei. auto.
      * destruct (F y Sh Hy) as (y' & Hy' & Eb & Ei). exists y'. rewrite Eb, Ei. auto.
    + intros c mp Hc. destruct (F c Sh Hc) as (x & Hx & _ & <-). apply L4; auto.
Qed.
Lemma shape_tiles m m' whole : same_shape m m' -> env_tiles whole (em_cells m) -> env_tiles whole (em_cells m').
Proof.
  intros Sh (T1 & T2 & T3). pose proof (shape_in m m') as F. pose proof (shape_in m' m) as B.
  pose proof (shape_sym _ _ Sh) as Sh'. split; [|split].
  - intros x y M. destruct (T1 x y M) as (c & Hc & Mc). destruct (B c Sh' Hc) as (c' & Hc' & Eb & _). exists c'. rewrite Eb. auto.
  - intros c x y Hc M. destruct (F c Sh Hc) as (c' & Hc' & Eb & _). apply (T2 c'); auto. rewrite Eb; auto.
  - intros c c' x y Hc Hc' M M'. destruct (F c Sh Hc) as (a & Ha & Ea & <-). destruct (F c' Sh Hc') as (b & Hb & Eb & <-).
    apply (T3 a b x y); auto; congruence.
Qed.

Lemma list_set_map {A B} (f : A -> B) l i x : forall y, nth_error l i = Some y -> f x = f y -> map f (list_set l i x) = map f l.
Proof.
  revert i. induction l as [|a l IH]; intros [|i] y H E; cbn in *; try discriminate; auto.
  - injection H as ->. congruence.
  - f_equal. eauto.
Qed.

Lemma update_shape m i vs m' : update_cellbox m i vs = Ok m' -> same_shape m m'.
Proof.
  unfold update_cellbox. cbv zeta. destruct (_ || _); [|discriminate]. unfold py_nth. cbv zeta.
  set (j := if i <? 0 then i + Z.of_nat (List.length (em_cells m)) else i).

  destruct (j <? 0); [discriminate|]. destruct (nth_error (em_cells m) (Z.to_nat j)) as [c|] eqn:E; [|discriminate].
  cbn [bind]. intros H. injection H as <-. split; [|split; [|split]]; try reflexivity.
  cbn [em_cells set_cells]. eapply list_set_map; eauto.
Qed.

(** ** Histories *)
Lemma append_config_size c c2 : c_width (append_config c c2) = c_width c /\ c_height (append_config c c2) = c_height c /\
  c_depth (append_config c c2) = c_depth c /\ c_region (append_config c c2) = c_region c /\
  c_merged (append_config c c2) = c_merged c ++ [c2].
Proof. destruct c; repeat split; reflexivity. Qed.

Lemma merge_validated m1 m2 r : merge_mesh m1 m2 = Ok r -> validate_merge m1 m2 = Ok true.
Proof. unfold merge_mesh. destruct (validate_merge m1 m2) as [[|]|]; cbn [bind negb]; intros; auto; discriminate. Qed.

Lemma fits_mergeable m other : well_kept m -> fits m other -> mergeable m other.
Proof.
  intros (S & P & T & Hs & G) (S2 & I2 & P2 & In2 & T2 & _). split; auto. split; auto. split; auto. split; auto.
  split; [|split; auto]. intros c Hc. pose proof (plane_region _ P2) as (X0 & X1 & Y0 & Y1).
  pose proof (tiles_inside _ _ _ T2 Hc (proj1 (proj2 S2) c Hc)) as H. rewrite X0, X1, Y0, Y1 in H. exact H.
Qed.

Lemma history_step_splits m m' : well_kept m -> esplits m m' -> well_kept m' /\ em_bounds m' = em_bounds m.
Proof.
  intros (S & P & T & Hs & G) E. apply sound_inv in S.
  destruct (esplits_all (region (em_bounds m)) m m' S E) as (I' & T' & B' & C' & G' & _).
  split; auto. unfold well_kept. rewrite B', C'. split; [apply sound_inv; auto|]. auto.
Qed.

Theorem history_ok m m' : well_kept m -> env_history m m' ->
  well_kept m' /\ em_bounds m' = em_bounds m /\ c_region (em_config m') = c_region (em_config m) /\
  c_width (em_config m') = c_width (em_config m) /\ c_height (em_config m') = c_height (em_config m) /\
  c_depth (em_config m') = c_depth (em_config m).
Proof.
  intros W H. revert W. induction H as [m|m m1 m2 k H IH E|m m1 m2 fuel ps H IH E|m m1 m2 i vs H IH E|m m1 m2 o o' H IH F E]; intros W; auto 10.
  - destruct (IH W) as (W1 & B1 & R1 & CW & CH & CD).
    assert (S : esplits m1 m2) by (econstructor; [constructor|exact E]).
    destruct (history_step_splits _ _ W1 S) as (W2 & B2). split; auto. split; [congruence|].
    destruct W1 as (S1 & _). apply sound_inv in S1. destruct (esplits_all (region (em_bounds m1)) m1 m2 S1 S) as (_ & _ & _ & C & _).
    rewrite C. auto.
  - destruct (IH W) as (W1 & B1 & R1 & CW & CH & CD).
    assert (S : esplits m1 m2) by (eapply split_points_esplits; eauto).
    destruct (history_step_splits _ _ W1 S) as (W2 & B2). split; auto. split; [congruence|].
    destruct W1 as (S1 & _). apply sound_inv in S1. destruct (esplits_all (region (em_bounds m1)) m1 m2 S1 S) as (_ & _ & _ & C & _).
    rewrite C. auto.
  - destruct (IH W) as ((S & P & T & Hs & G) & B1 & R1 & CW & CH & CD). pose proof (update_shape _ _ _ _ E) as Sh.
    pose proof Sh as (Eb & Ec & _). unfold well_kept. rewrite Eb, Ec. split; [|auto].
    split; [eapply shape_sound; eauto|]. split; auto. split; [eapply shape_tiles; eauto|]. split; auto.
    intros c Hc. destruct (shape_in _ _ _ Sh Hc) as (x & Hx & <- & _). auto.
  - destruct (IH W) as (W1 & B1 & R1 & CW & CH & CD). pose proof (fits_mergeable _ _ W1 F) as Mg.
    pose proof (merge_validated _ _ _ E) as V.
    destruct (mergeable_ok _ _ Mg V) as (x & o'' & E' & I' & C' & B' & Cf & _). rewrite E in E'. injection E' as <- <-.
    destruct (append_config_size (em_config m1) (em_config o)) as (A1 & A2 & A3 & A4 & _).
    unfold well_kept. rewrite B', Cf, A1, A2, A3, A4. split; [|auto].
    destruct W1 as (S & P & T & Hs & G). destruct F as (S2 & I2 & P2 & In2 & T2 & G2).
    split; [apply sound_inv; auto|]. split; auto. split; [|split; auto].
    + rewrite C'. apply merge_tiles; auto. intros a b M.
      pose proof (plane_region _ P) as (X0 & X1 & Y0 & Y1). pose proof (plane_region _ P2) as (X0' & X1' & Y0' & Y1').
      unfold mem, inside in *. rewrite X0, X1, Y0, Y1. rewrite X0', X1', Y0', Y1' in M. lra.
    + rewrite C'. intros c Hc. apply in_app_or in Hc as [Hc|Hc].
      * apply kept_in in Hc as [Hc _]. auto.
      * apply in_map_iff in Hc as (y & <- & Hy). cbn [increment_cell e_bounds]. auto.
Qed.

(** ** [update_cellbox] exactly *)
Theorem update_spec m i vs :
  let n := Z.of_nat (List.length (em_cells m)) in
  (0 <= i < n -> exists l1 c l2, em_cells m = l1 ++ c :: l2 /\ Z.of_nat (List.length l1) = i /\
     update_cellbox m i vs = Ok (set_cells m (l1 ++ mkE (e_bounds c) (supdate (e_data c) vs) (e_id c) :: l2))) /\
  (- n <= i < 0 -> exists m', update_cellbox m i vs = Ok m' /\ update_cellbox m (i + n) vs = Ok m') /\
  (i < - n \/ n <= i -> update_cellbox m i vs = Err IndexError).
Proof.
  cbv zeta. set (n := Z.of_nat (List.length (em_cells m))).
  assert (U : forall i, update_cellbox m i vs =
    c <- py_nth (em_cells m) i ;;
    Ok (set_cells m (list_set (em_cells m) (Z.to_nat (if i <? 0 then i + n else i)) (mkE (e_bounds c) (supdate (e_data c) vs) (e_id c))))).
  { intros j. unfold update_cellbox. cbv zeta. fold n. destruct (Z.ltb_spec (-1) j), (Z.ltb_spec j n); cbn [orb]; auto. lia. }
  assert (Pos : forall j, 0 <= j < n -> exists l1 c l2, em_cells m = l1 ++ c :: l2 /\ Z.of_nat (List.length l1) = j /\ py_nth (em_cells m) j = Ok c).
  { intros j Hj. destruct (nth_error (em_cells m) (Z.to_nat j)) as [c|] eqn:E.
    - destruct (nth_error_split _ _ E) as (l1 & l2 & E1 & E2). exists l1, c, l2. split; auto. split; [lia|].
      unfold py_nth. cbv zeta. destruct (Z.ltb_spec j 0); [lia|]. destruct (Z.ltb_spec j 0); [lia|]. rewrite E. auto.
    - apply nth_error_None in E. lia. }
  split; [|split].
  - intros Hi. destruct (Pos i Hi) as (l1 & c & l2 & E1 & E2 & E3). exists l1, c, l2. split; auto. split; auto.
    rewrite U, E3. cbn [bind]. do 2 f_equal. destruct (Z.ltb_spec i 0); [lia|]. rewrite <- E2, Nat2Z.id, E1. clear.
    induction l1; cbn; congruence.
  - intros Hi. destruct (Pos (i + n) ltac:(lia)) as (l1 & c & l2 & E1 & E2 & E3).
    assert (E3' : py_nth (em_cells m) i = Ok c).
    { rewrite <- E3. unfold py_nth. cbv zeta. fold n.
      destruct (Z.ltb_spec i 0); [|lia]. destruct (Z.ltb_spec (i + n) 0); [lia|]. destruct (Z.ltb_spec (i + n) 0); [lia|]. auto. }
    eexists. split; [rewrite U, E3'; cbn [bind]; reflexivity|]. rewrite U, E3. cbn [bind].
    destruct (Z.ltb_spec i 0); [|lia]. destruct (Z.ltb_spec (i + n) 0); [lia|]. auto.
  - intros Hi. rewrite U. unfold py_nth. cbv zeta. fold n.
    destruct (Z.ltb_spec i 0).
    + destruct (Z.ltb_spec (i + n) 0); auto. lia.
    + destruct (Z.ltb_spec i 0); [lia|]. assert (X : nth_error (em_cells m) (Z.to_nat i) = None) by (apply nth_error_None; lia).
      rewrite X. auto.
Qed.

Lemma kept_selected m1 m2 : selected (fun c => ~ inside (em_bounds m2) (e_bounds c)) (em_cells m1) (kept m1 m2).
Proof.
  unfold kept. induction (em_cells m1) as [|c cs IH]; cbn [filter]; [constructor|].
  destruct (within_bounds (em_bounds m2) c) eqn:E; cbn [negb].
  - apply sel_skip; auto. intros H. apply H. apply inside_within; auto.
  - apply sel_take; auto. intros H. apply inside_within in H. congruence.
Qed.
