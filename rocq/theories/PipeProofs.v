(** Proofs for C59. *)
From Verif Require Import Base Geo Graph Cell Loaders Builder Env Spec MeshSpec EnvSpec DataSpec QLib CaseProofs SplitGeo Dict Rep SplitCore Stage BuilderSplit Invariant Grid Build Consequences Reach MeshFacts TrimProofs AggProofs FillProofs Adaptive ChainProofs AdaptiveFacts EnvInv EnvMerge EnvJson EnvLink PyStr Dates Config ConfigSpec ConfigProofs Params ParamSpec ParamProofs Pipeline PipeSpec.
Open Scope string_scope.
Open Scope Z_scope.

(** ** Parameters that neither the factory nor the defaults touch *)
Definition untouched : list string := ["splitting_conditions"; "value_fill_types"; "file"; "folder"].
Lemma sget_sdel_other d k k' : k' <> k -> sget (sdel d k) k' = sget d k'.
Proof.
  intros N. induction d as [|[a v] d IH]; auto. cbn. destruct (String.eqb_spec k a) as [<-|].
  - destruct (String.eqb_spec k' k); [contradiction|auto].
  - cbn. rewrite IH. auto.
Qed.
Lemma factory_untouched glob name p min_dp cls p' k : In k ["splitting_conditions"; "value_fill_types"] -> get_dataloader glob name p min_dp = Ok (cls, p') ->
  sget p' k = sget p k.
Proof.
  intros H E. unfold get_dataloader in E. destruct (translate_file_input glob p) as [q|] eqn:T; [|discriminate]. cbn [bind] in E.
  destruct (sget requirements (lower name)) as [[c req]|]; [|discriminate].
  destruct (forallb _ req); [|discriminate]. injection E as <- <-.
  assert (Q : sget q k = sget p k).
  { unfold translate_file_input in T. destruct (sget p "file") as [f|] eqn:F.
    - injection T as <-. destruct H as [<-|[<-|[]]]; rewrite sget_sdel_other by discriminate; rewrite sget_sset; reflexivity.
    - destruct (sget p "folder") as [[]|]; try discriminate; injection T as <-; auto.
      destruct H as [<-|[<-|[]]]; rewrite sget_sdel_other by discriminate; rewrite sget_sset; reflexivity. }
  rewrite <- Q. destruct H as [<-|[<-|[]]]; rewrite !sget_sset; reflexivity.
Qed.

Lemma dflt_other k0 v d k : k <> k0 -> sget (dflt k0 v d) k = sget d k.
Proof. intros N. rewrite sget_dflt. destruct (String.eqb_spec k k0); [contradiction|auto]. Qed.
Lemma sset_other {V} (d : sdict V) k0 v k : k <> k0 -> sget (sset d k0 v) k = sget d k.
Proof. intros N. rewrite sget_sset. destruct (String.eqb_spec k k0); [contradiction|auto]. Qed.
Lemma untouched_ne k k0 : In k untouched -> existsb (String.eqb k0) untouched = false -> k <> k0.
Proof.
  intros H E ->. assert (existsb (String.eqb k0) untouched = true) by (apply existsb_exists; exists k0; split; auto; apply String.eqb_refl). congruence.
Qed.
Ltac other H := repeat first
  [ rewrite dflt_other by (apply (untouched_ne _ _ H); reflexivity)
  | rewrite sset_other by (apply (untouched_ne _ _ H); reflexivity) ].
Ltac cases_other H := other H; repeat match goal with |- context [if ?x then _ else _] => destruct x; other H end.
Local Strategy 100 [dflt base_defaults given sget sset is_null].
(** One [let] at a time. *)
Ltac step_goal H :=
  match goal with |- sget (let x := ?a in @?F x) ?k = ?v =>
    change (sget (F a) k = v); let W := fresh "W" in assert (W : sget a k = v) by (cases_other H; assumption);
    revert W; generalize a; let d := fresh "d" in intros d W; cbv beta
  end.
Ltac step_hyp H E :=
  match type of E with (let x := ?a in @?F x) = ?r =>
    match goal with |- sget _ ?k = ?v =>
    change (F a = r) in E; let W := fresh "W" in assert (W : sget a k = v) by (cases_other H; assumption);
    revert W E; generalize a; let d := fresh "d" in intros d W E; cbv beta in E end
  end.
Lemma base_untouched cls p k v : In k untouched -> sget p k = v -> sget (base_defaults cls p) k = v.
Proof. intros H W. cbv delta [base_defaults]; cbv beta. repeat step_goal H. other H. assumption. Qed.
Lemma shape_untouched cls p k v : In k untouched -> sget p k = v -> sget (shape_defaults cls p) k = v.
Proof.
  intros H W. apply (base_untouched cls) in W; auto. cbv delta [shape_defaults]; cbv beta. revert W. generalize (base_defaults cls p). intros r W.
  repeat step_goal H.
  repeat match goal with |- context [if ?x then _ else _] => destruct x end; repeat step_goal H; cases_other H; assumption.
Qed.
Lemma vshape_untouched cls p k v : In k untouched -> sget p k = v -> sget (vector_shape_defaults cls p) k = v.
Proof.
  intros H W. apply (base_untouched cls) in W; auto. cbv delta [vector_shape_defaults]; cbv beta. revert W. generalize (base_defaults cls p). intros r W.
  repeat step_goal H.
  repeat match goal with |- context [if ?x then _ else _] => destruct x end; repeat step_goal H; cases_other H; assumption.
Qed.
Lemma grf_untouched cls p p' k v : In k untouched -> sget p k = v -> scalar_grf_defaults cls p = Ok p' -> sget p' k = v.
Proof.
  intros H W E. apply (base_untouched cls) in W; auto. cbv delta [scalar_grf_defaults] in E; cbv beta in E. revert W E. generalize (base_defaults cls p). intros r W E.
  repeat step_hyp H E. destruct (sget _ "binary") as [bn|]; [|discriminate].
  destruct (py_true bn); repeat step_hyp H E; injection E as <-; cases_other H; assumption.
Qed.
Lemma vgrf_untouched cls p p' k v : In k untouched -> sget p k = v -> vector_grf_defaults cls p = Ok p' -> sget p' k = v.
Proof.
  intros H W E. apply (base_untouched cls) in W; auto. cbv delta [vector_grf_defaults] in E; cbv beta in E. revert W E. generalize (base_defaults cls p). intros r W E.
  do 5 step_hyp H E. cbv zeta in E.
  match type of E with (bind ?x _) = _ => destruct x as [d0'|] eqn:E1; [|discriminate] end. cbn [bind] in E.
  match type of E with (bind ?x _) = _ => destruct x as [d1'|] eqn:E2; [|discriminate] end. cbn [bind] in E. injection E as <-.
  assert (V1 : sget d0' k = v).
  { destruct (given _ "vec_x"); [injection E1 as <-; assumption|].
    match type of E1 with (bind ?x _) = _ => destruct x; [|discriminate] end. injection E1 as <-. other H. assumption. }
  assert (V2 : sget d1' k = v).
  { destruct (given _ "vec_y"); [injection E2 as <-; assumption|].
    match type of E2 with (bind ?x _) = _ => destruct x; [|discriminate] end. injection E2 as <-. other H. assumption. }
  other H. assumption.
Qed.
Lemma amsr_untouched cls p p' k v : In k untouched -> sget p k = v -> amsr_defaults cls p = Ok p' -> sget p' k = v.
Proof.
  intros H W E. apply (base_untouched cls) in W; auto. cbv delta [amsr_defaults] in E; cbv beta in E. revert W E. generalize (base_defaults cls p). intros r W E.
  cbv zeta in E. destruct (sget r "hemisphere") as [[]|]; try discriminate.
  destruct (String.eqb _ "north"); [injection E as <-; other H; assumption|].
  destruct (String.eqb _ "south"); [injection E as <-; other H; assumption|discriminate].
Qed.
Lemma defaults_untouched cls p p' k : In k untouched -> add_default_params cls p = Ok p' -> sget p' k = sget p k.
Proof.
  intros H E. unfold add_default_params in E.
  destruct (String.eqb cls "ShapeDataLoader"). { injection E as <-. apply shape_untouched; auto. }
  destruct (String.eqb cls "VectorShapeDataLoader"). { injection E as <-. apply vshape_untouched; auto. }
  destruct (String.eqb cls "ScalarGRFDataLoader"). { eapply grf_untouched; eauto. }
  destruct (String.eqb cls "VectorGRFDataLoader"). { eapply vgrf_untouched; eauto. }
  destruct (String.eqb cls "AMSRDataLoader"). { eapply amsr_untouched; eauto. }
  destruct (_ || _)%bool. { injection E as <-. unfold lut_file_defaults, lut_defaults. cbv zeta. other H. reflexivity. }
  destruct (existsb _ _); injection E as <-; [unfold lut_defaults; cbv zeta; other H; reflexivity|apply base_untouched; auto].
Qed.

(** ** Reading conditions and fill types *)
Lemma jget_at o k v : sget o k = Some v -> jget (JObj o) k = Ok v.
Proof. intros H. cbn. rewrite H. reflexivity. Qed.
Lemma condition_read name j c : condition_says name j c -> (x <- jget j name ;; cond_of x) = Ok c.
Proof.
  intros (o & p & -> & E & (t & T1 & T2) & (l & L1 & L2) & (u & U1 & U2) & K). rewrite (jget_at _ _ _ E). cbn [bind].
  unfold cond_of. rewrite (jget_at _ _ _ T1), (jget_at _ _ _ L1), (jget_at _ _ _ U1). cbn [bind].
  rewrite (number_fun _ _ T2), (number_fun _ _ L2), (number_fun _ _ U2). cbn [bind as_obj].
  unfold lock_says in K. destruct c as [ct cl cu ck]. cbn in K |- *. destruct (sget p "split_lock") as [v|].
  - rewrite (true_read v ck K). reflexivity.
  - subst ck. reflexivity.
Qed.
Lemma conditions_read p name cs : conditions_say p name cs -> splitting_conditions p [name] = Ok cs.
Proof.
  unfold conditions_say, splitting_conditions. destruct (sget p "splitting_conditions") as [j|]; [|intros ->; auto].
  intros (l & -> & F). cbn [as_arr bind]. change (join_names [name]) with name. induction F as [|j c l cs H F IH]; auto. cbn [mapM].
  rewrite (condition_read _ _ _ H). cbn [bind]. rewrite IH. reflexivity.
Qed.
Lemma fill_read ft p f : fill_says p f -> (v <- check_value_fill_type ft p ;; fill_of v) = Ok f.
Proof.
  unfold fill_says, check_value_fill_type. destruct (sget p "value_fill_types") as [j|]; [|intros ->; reflexivity].
  intros [[-> ->]|[(q & N & ->)|(t & -> & ->)]].
  - cbn [String.eqb Ascii.eqb Bool.eqb]. rewrite Bool.orb_true_r. reflexivity.
  - destruct N; reflexivity.
  - destruct t; reflexivity.
Qed.
Lemma conditions_ext p p' name cs : sget p' "splitting_conditions" = sget p "splitting_conditions" ->
  conditions_say p name cs -> conditions_say p' name cs.
Proof. unfold conditions_say. intros ->. auto. Qed.
Lemma fill_ext p p' f : sget p' "value_fill_types" = sget p "value_fill_types" -> fill_says p f -> fill_says p' f.
Proof. unfold fill_says. intros ->. auto. Qed.

(** ** Nested bounds of the cells *)
Definition depth_ok (b : boundary) (cw ch : Q) (c : cellbox) : Prop :=
  nested b cw ch (map cb_bounds (c :: ancestors c)) /\ cb_depth c = Z.of_nat (List.length (ancestors c)).

Lemma split_nested b cw ch m i m' : mesh_inv m -> split_and_replace m i = Ok m' ->
  (forall j c, live_cell m j c -> depth_ok b cw ch c) -> forall j c, live_cell m' j c -> depth_ok b cw ch c.
Proof.
  intros Inv E Ch. destruct (split_step _ _ _ Inv E) as (c & kidc & Li & I' & SR & _).
  intros j x Hj. apply (after_split _ _ _ _ _ Inv Li SR) in Hj as [[Hj _]|(q & -> & ->)]; [eapply Ch; eauto|].
  destruct (Ch i c Li) as [Nc Dc].
  destruct SR as (_ & _ & Hk). destruct (Hk q) as (K1 & K2 & K3 & K4 & K5 & K6 & K7).
  unfold depth_ok. rewrite (ancestors_kid _ _ K3). split.
  - cbn [map] in *. eapply nested_quarter; eauto. inversion Nc; congruence.
  - cbn [List.length]. lia.
Qed.
Lemma splits_nested b cw ch m m' : mesh_inv m -> splits m m' ->
  (forall j c, live_cell m j c -> depth_ok b cw ch c) -> forall j c, live_cell m' j c -> depth_ok b cw ch c.
Proof.
  intros Inv S H. induction S as [|m m1 m2 i S IH E]; auto.
  apply (split_nested b cw ch m1 i m2); auto; [eapply splits_inv; eauto|]. exact (IH Inv H).
Qed.
Lemma built_nested b cw ch srcs m j c : admissible b cw ch -> build_mesh b cw ch srcs = Ok m -> live_cell m j c -> depth_ok b cw ch c.
Proof.
  intros A E L. destruct (build_cell _ _ _ _ _ _ _ A E L) as (T & P & D & _). unfold depth_ok. rewrite (ancestors_root _ P), D.
  split; [|reflexivity]. apply nested_grid; [|exact T].
  destruct (build_grid b cw ch srcs m A E) as (R & C & HC & HR & Ln & G).
  assert (Hj : (j < R * C)%nat) by (rewrite <- Ln; apply nth_error_Some; unfold live_cell in L; congruence).
  assert (C0 : C <> 0%nat) by (intros ->; lia).
  pose proof (Nat.div_mod j C C0) as Dm. pose proof (Nat.mod_upper_bound j C C0) as Mu.
  assert (Hr : (j / C < R)%nat) by (apply Nat.div_lt_upper_bound; lia).
  destruct (G (j / C)%nat (j mod C)%nat Hr Mu) as (x & Lx & _ & _ & _ & _ & _ & Gx).
  replace (j / C * C + j mod C)%nat with j in Lx by lia.
  assert (x = c) by (unfold live_cell in *; congruence). subst x. cbv zeta in Gx. destruct Gx as (G1 & G2 & G3 & G4).
  exists (Z.of_nat (j mod C)), (Z.of_nat (j / C)). split; [lia|].
  destruct A as (_ & Hcw & Hch & _).
  assert (X1 : (inject_Z (Z.of_nat (j mod C)) * cw + cw <= inject_Z (Z.of_nat C) * cw)%Q).
  { assert (Y : (inject_Z (Z.of_nat (j mod C) + 1) <= inject_Z (Z.of_nat C))%Q) by (rewrite <- Zle_Qle; lia).
    rewrite inject_Z_plus in Y. change (inject_Z 1) with 1%Q in Y. nra. }
  assert (X2 : (inject_Z (Z.of_nat (j / C)) * ch + ch <= inject_Z (Z.of_nat R) * ch)%Q).
  { assert (Y : (inject_Z (Z.of_nat (j / C) + 1) <= inject_Z (Z.of_nat R))%Q) by (rewrite <- Zle_Qle; lia).
    rewrite inject_Z_plus in Y. change (inject_Z 1) with 1%Q in Y. nra. }
  repeat split; lra.
Qed.
Lemma reachable_nested b cw ch srcs m j c : admissible b cw ch -> reachable b cw ch srcs m -> live_cell m j c -> depth_ok b cw ch c.
Proof.
  intros A (m0 & E & S) L. destruct (build_facts _ _ _ _ _ A E) as (R & C & _ & _ & _ & _ & _ & I0 & _).
  apply (splits_nested b cw ch m0 m I0 S) with (j := j); auto. intros j' c'. apply (built_nested b cw ch srcs m0); auto.
Qed.

(** ** Feeds as sources *)
Section Feeds.
Variable sq : Q -> Q.
Definition feed_meta (k : nat) (f : feed) : metadata := mkMeta (feed_loader sq k f) (f_conds f) (f_fill f) (f_data f).
Definition usable (f : feed) : Prop := In (f_agg f) df_aggs /\ (f_fill f = FillParent \/ exists q, f_fill f = FillNum q).
Fixpoint metas (k : nat) (fs : list feed) : list metadata :=
  match fs with [] => [] | f :: fs' => feed_meta k f :: metas (S k) fs' end.
Lemma metas_nth fs : forall k i f, nth_error fs i = Some f -> nth_error (metas k fs) i = Some (feed_meta (k + i) f).
Proof.
  induction fs as [|g fs IH]; intros k [|i] f H; try discriminate; cbn in *.
  - injection H as ->. rewrite Nat.add_0_r. auto.
  - rewrite (IH (S k) i f H). do 2 f_equal. lia.
Qed.
Lemma metas_in fs s : forall k, In s (metas k fs) -> exists i f, In f fs /\ s = feed_meta i f.
Proof.
  induction fs as [|g fs IH]; intros k H; [destruct H|]. destruct H as [<-|H]; [exists k, g; split; auto; left; auto|].
  destruct (IH _ H) as (i & f & H1 & H2). exists i, f. split; auto. right; auto.
Qed.
Lemma metas_in_inv fs f : In f fs -> forall k, exists i, In (feed_meta i f) (metas k fs).
Proof.
  intros H. induction fs as [|g fs IH]; [destruct H|]. intros k. destruct H as [->|H].
  - exists k. left. auto.
  - destruct (IH H (S k)) as (i & Hi). exists i. right. auto.
Qed.
Lemma feed_uid k f : uid_of (feed_meta k f) = Z.of_nat k.
Proof. unfold uid_of, feed_meta, feed_loader. cbn. destruct (f_xr f); reflexivity. Qed.
Lemma feed_names k f : l_names (feed_loader sq k f) = [f_name f].
Proof. unfold feed_loader. destruct (f_xr f); reflexivity. Qed.
Lemma metas_uids fs : forall k, NoDup (map uid_of (metas k fs)) /\ forall z, In z (map uid_of (metas k fs)) -> Z.of_nat k <= z.
Proof.
  induction fs as [|g fs IH]; intros k; cbn [metas map]; [split; [constructor|intros z []]|]. destruct (IH (S k)) as [N L]. rewrite feed_uid. split.
  - constructor; auto. intros H. apply L in H. lia.
  - intros z [<-|H]; [lia|]. apply L in H. lia.
Qed.
Lemma feed_scalar k f : usable f -> scalar_source (feed_meta k f).
Proof.
  intros [A F]. split; [|exact F]. exists (Z.of_nat k), (f_name f), (f_agg f), (f_min f), sq. split; auto.
  cbn. unfold feed_loader. destruct (f_xr f); auto.
Qed.
Lemma feed_source_name k f : source_name (feed_meta k f) = f_name f.
Proof. unfold source_name. cbn. rewrite feed_names. auto. Qed.

(** The value of a source in a cell is the feed's value over its bounds. *)
Lemma feed_own k f c : usable f -> (long_min (cb_bounds c) < long_max (cb_bounds c))%Q -> times_ok (time_range (cb_bounds c)) ->
  own_value sq f (cb_bounds c) (whole_value (feed_meta k f) c).
Proof.
  intros [A _] L T. exists (df_trim (cb_bounds c) (f_data f)). split; [apply df_trim_selects; auto|].
  unfold whole_value. rewrite feed_source_name. cbn [feed_meta m_loader m_subset]. unfold feed_loader.
  destruct (f_xr f); cbn [l_value scalar_df scalar_xr].
  - unfold scalar_value_xr. rewrite xr_trim_rows_df by auto.
    destruct (value_total true sq (f_agg f) (column 0 (df_trim (cb_bounds c) (f_data f))) A) as (v & E). cbn in E. rewrite E. cbn.
    rewrite String.eqb_refl. auto.
  - unfold scalar_value_df.
    destruct (value_total false sq (f_agg f) (column 0 (df_trim (cb_bounds c) (f_data f))) A) as (v & E). cbn in E. rewrite E. cbn.
    rewrite String.eqb_refl. auto.
Qed.
Definition plain_cell (c : cellbox) : Prop := (long_min (cb_bounds c) < long_max (cb_bounds c))%Q /\ times_ok (time_range (cb_bounds c)).
Lemma feed_filled k f c : usable f -> Forall plain_cell (c :: ancestors c) ->
  filled sq f (map cb_bounds (c :: ancestors c)) (filled_value (feed_meta k f) c).
Proof.
  intros U Ch. unfold filled_value. cbn [m_fill feed_meta].
  assert (Ow : forall a, In a (c :: ancestors c) -> own_value sq f (cb_bounds a) (whole_value (feed_meta k f) a)).
  { intros a Ha. rewrite Forall_forall in Ch. apply feed_own; auto; apply Ch; auto. }
  destruct U as [_ [F|(q & F)]]; rewrite F.
  - clear Ch. induction (c :: ancestors c) as [|a l IH]; cbn [map first_known]; [apply filled_none; auto|].
    pose proof (Ow a (or_introl eq_refl)) as O. destruct (whole_value (feed_meta k f) a).
    + apply filled_own. auto.
    + apply filled_parent; auto. apply IH. intros; apply Ow; right; auto.
  - cbn [map]. pose proof (Ow c (or_introl eq_refl)) as O. destruct (whole_value (feed_meta k f) c).
    + apply filled_own. auto.
    + apply filled_number; auto.
Qed.
Lemma feed_written fs k c n : (forall f, In f fs -> usable f) -> Forall plain_cell (c :: ancestors c) ->
  written sq fs (map cb_bounds (c :: ancestors c)) n (option_map jval_of (merged_value n (metas k fs) c)).
Proof.
  intros U Ch. exists (map (fun s => filled_value s c) (filter (fun s => String.eqb (source_name s) n) (metas k fs))). split.
  - revert k. induction fs as [|f fs IH]; intros k; cbn [filter metas map]; [constructor|]. rewrite feed_source_name.
    destruct (String.eqb (f_name f) n); [|apply IH; intros; apply U; right; auto].
    cbn [map]. constructor; [|apply IH; intros; apply U; right; auto]. apply feed_filled; auto. apply U. left. auto.
  - unfold merged_value. destruct (filter _ (metas k fs)); reflexivity.
Qed.
End Feeds.

(** ** Reading the sources *)
Lemma not_table cls : ~ In cls table_classes -> table_class cls = false.
Proof.
  intros H. unfold table_class. destruct (existsb _ _) eqn:E; [|reflexivity]. exfalso. apply H.
  apply existsb_exists in E as (x & I & E). apply String.eqb_eq in E. subst x. cbn in I |- *. tauto.
Qed.
Lemma source_read glob ft construct sq b min_dp k src f j :
  loader_says j src -> supplies glob construct sq b min_dp k src f ->
  source_metadata glob ft construct b min_dp k j = Ok (feed_meta sq k f).
Proof.
  destruct src as [nm ps].
  intros (o & -> & L1 & L2 & _) ((cls & p & p' & E1 & E2 & E3 & _ & Tc) & _ & _ & Hc & Hf). cbn [fst snd] in *.
  unfold source_metadata. rewrite (jget_at _ _ _ L1), (jget_at _ _ _ L2). cbn [bind as_str as_obj].
  rewrite E1. cbn [bind fst snd]. rewrite E2. cbn [bind]. rewrite E3. cbn [bind fst snd]. rewrite feed_names, (not_table _ Tc).
  assert (U : forall x, In x ["splitting_conditions"; "value_fill_types"] -> sget p' x = sget ps x).
  { intros x Hx. rewrite (defaults_untouched _ _ _ x) by (try exact E2; cbn in Hx |- *; tauto). apply (factory_untouched _ _ _ _ _ _ _ Hx E1). }
  rewrite (conditions_read p' (f_name f) (f_conds f)); [|eapply conditions_ext; [apply U; left; reflexivity|exact Hc]]. cbn [bind].
  pose proof (fill_read ft p' (f_fill f) (fill_ext ps p' (f_fill f) (U _ (or_intror (or_introl eq_refl))) Hf)) as Fr.
  destruct (check_value_fill_type ft p') as [v|]; [|discriminate]. cbn [bind] in *. rewrite Fr. reflexivity.
Qed.
Lemma supplies_usable glob construct sq b min_dp k src f : supplies glob construct sq b min_dp k src f -> usable f.
Proof.
  intros (_ & A & _ & _ & F). split; auto. unfold fill_says in F. destruct (sget _ _); auto. destruct F as [[_ F]|[(q & _ & F)|(t & _ & F)]]; eauto.
Qed.
Lemma sources_read glob ft construct sq b min_dp d ls fs : forall k,
  Forall2 loader_says d ls ->
  (forall i src f, nth_error ls i = Some src -> nth_error fs i = Some f -> supplies glob construct sq b min_dp (k + i) src f) ->
  List.length fs = List.length ls ->
  mapM (fun kj => source_metadata glob ft construct b min_dp (fst kj) (snd kj)) (combine (seq k (List.length d)) d) = Ok (metas sq k fs).
Proof.
  revert ls fs. induction d as [|j d IH]; intros ls fs k F Hs Len; inversion F as [|? src ? ls' Hj F']; subst.
  - destruct fs; [reflexivity|discriminate].
  - destruct fs as [|f fs]; [discriminate|]. cbn [List.length seq combine mapM fst snd].
    rewrite (source_read glob ft construct sq b min_dp k src f j Hj); [|specialize (Hs 0%nat src f eq_refl eq_refl); rewrite Nat.add_0_r in Hs; exact Hs].
    cbn [bind]. rewrite (IH ls' fs (S k) F'); [reflexivity| |cbn in Len; lia].
    intros i s0 f0 H1 H2. specialize (Hs (S i) s0 f0 H1 H2). replace (S k + i)%nat with (k + S i)%nat by lia. exact Hs.
Qed.
Lemma whole_read j z : whole j z -> as_int j = Ok z.
Proof.
  intros [z'|q z' E]; cbn; auto. unfold is_integer. rewrite (qfloor_eq q z' E).
  destruct (qeqb_spec q (inject_Z z')); [auto|contradiction].
Qed.

(** ** Aggregated dictionaries are dictionaries *)
Lemma sset_keys {V} (d : sdict V) k v n : In n (map fst (sset d k v)) -> n = k \/ In n (map fst d).
Proof.
  induction d as [|[a w] d IH]; cbn; [intros [<-|[]]; auto|]. destruct (String.eqb_spec k a) as [<-|]; cbn; [tauto|].
  intros [H|H]; auto. destruct (IH H); auto.
Qed.
Lemma sset_nodup {V} (d : sdict V) k v : NoDup (map fst d) -> NoDup (map fst (sset d k v)).
Proof.
  induction d as [|[a w] d IH]; cbn; intros H; [repeat constructor; intros []|]. inversion H as [|? ? N D]; subst.
  destruct (String.eqb_spec k a) as [<-|Ne]; cbn; constructor; auto.
  intros C. apply sset_keys in C as [->|C]; contradiction.
Qed.
Lemma supdate_nodup {V} (e d : sdict V) : NoDup (map fst d) -> NoDup (map fst (supdate d e)).
Proof. unfold supdate. revert d. induction e as [|[k v] e IH]; cbn; intros d H; auto. apply IH, sset_nodup; auto. Qed.
Lemma aggregate_nodup c ac : aggregate c = Ok ac -> NoDup (map fst (ac_data ac)).
Proof.
  unfold aggregate. intros E.
  set (body := fun agg s => v <- source_values c s ;; merge_values agg (join_names (l_names (m_loader s))) v) in E.
  destruct (foldM body [] (cb_sources c)) as [d|] eqn:F; [|discriminate]. injection E as <-. cbn [ac_data].
  assert (X : forall l a, NoDup (map fst a) -> foldM body a l = Ok d -> NoDup (map fst d)).
  { clear F. induction l as [|s l IH]; cbn [foldM]; intros a N F; [injection F as <-; auto|].
    destruct (body a s) as [a'|] eqn:B; [|discriminate]. cbn [bind] in F. apply (IH a'); auto.
    unfold body in B. destruct (source_values c s) as [v|]; [|discriminate]. cbn [bind] in B. unfold merge_values in B.
    destruct (sget a (join_names (l_names (m_loader s)))) as [old|]; [|injection B as <-; apply supdate_nodup; auto].
    destruct (isnan old) as [[|]|]; [| |discriminate]; injection B as <-; auto. apply supdate_nodup; auto. }
  apply (X (cb_sources c) []); auto. constructor.
Qed.
Lemma sget_in {V} (d : sdict V) n : In n (map fst d) -> sget d n <> None.
Proof.
  induction d as [|[k v] d IH]; [intros []|]. cbn. intros [->|H]; [rewrite String.eqb_refl; discriminate|].
  destruct (String.eqb n k); [discriminate|auto].
Qed.
Lemma sget_map_snd {V W} (f : V -> W) d n : sget (map (fun kv => (fst kv, f (snd kv))) d) n = option_map f (sget d n).
Proof. induction d as [|[k v] d IH]; auto. cbn. destruct (String.eqb n k); auto. Qed.

(** ** Answers *)
Lemma selected_fun {A} (P : A -> Prop) l l1 : selected P l l1 -> forall l2, selected P l l2 -> l1 = l2.
Proof.
  induction 1 as [|x l l' H S IH|x l l' H S IH]; intros l2 S2; inversion S2; subst; auto; try contradiction.
  f_equal. auto.
Qed.
Lemma Forall2_firstn {A B} (R : A -> B -> Prop) n l l' : Forall2 R l l' -> Forall2 R (firstn n l) (firstn n l').
Proof. intros F. revert n. induction F as [|a b l l' H F IH]; intros [|n]; cbn; constructor; auto. Qed.
Lemma Forall2_in_l {A B} (R : A -> B -> Prop) l l' a : Forall2 R l l' -> In a l -> exists b, In b l' /\ R a b.
Proof. induction 1 as [|x y l l' H F IH]; intros []; subst; [exists y; split; auto; left; auto|]. destruct (IH H0) as (b & ? & ?). exists b. split; auto. right; auto. Qed.
Lemma Forall2_in_r {A B} (R : A -> B -> Prop) l l' b : Forall2 R l l' -> In b l' -> exists a, In a l /\ R a b.
Proof. induction 1 as [|x y l l' H F IH]; intros []; subst; [exists x; split; auto; left; auto|]. destruct (IH H0) as (a & ? & ?). exists a. split; auto. right; auto. Qed.
Lemma metas_firstn sq n fs : forall k, firstn n (metas sq k fs) = metas sq k (firstn n fs).
Proof. revert n. induction fs as [|f fs IH]; intros [|n] k; cbn; auto. rewrite IH. auto. Qed.
Lemma feed_hom sq k f b c d : l_hom (feed_loader sq k f) b c d = scalar_hom (f_min f) c (column 0 d).
Proof. unfold feed_loader. destruct (f_xr f); reflexivity. Qed.
Lemma metas_length sq fs : forall k, List.length (metas sq k fs) = List.length fs.
Proof. induction fs as [|f fs IH]; intros k; cbn; auto. Qed.

Lemma answers_says sq fs times c n h : cell_data_ok (metas sq 0 fs) times c ->
  (answers c n h <-> says_hom (firstn n fs) (cb_bounds c) h).
Proof.
  intros (_ & _ & _ & F). apply (Forall2_firstn _ n) in F. rewrite metas_firstn in F. unfold answers, says_hom. split.
  - intros (s & cd & Hs & Hc & ->). destruct (Forall2_in_r _ _ _ _ F Hs) as (s0 & H0 & Hh & Sel).
    destruct (metas_in sq _ _ _ H0) as (i & f & Hf & ->). injection Hh as E1 E2 _.
    exists f, cd, (m_subset s). split; auto. split; [rewrite <- E2; auto|]. split; [exact Sel|]. rewrite E1. apply feed_hom.
  - intros (f & cd & pts & Hf & Hc & Sel & ->). destruct (metas_in_inv sq _ _ Hf 0%nat) as (i & Hi).
    destruct (Forall2_in_l _ _ _ _ F Hi) as (s & Hs & Hh & Sel'). injection Hh as E1 E2 _.
    exists s, cd. split; auto. split; [rewrite E2; auto|]. rewrite E1, feed_hom. do 2 f_equal.
    eapply selected_fun; [exact Sel|exact Sel'].
Qed.
Lemma wants_ought sq fs times c n : cell_data_ok (metas sq 0 fs) times c ->
  (wants_split c n <-> ought_to_split (firstn n fs) (cb_bounds c)).
Proof. intros D. unfold wants_split, ought_to_split. rewrite !(answers_says sq fs times c n) by exact D. tauto. Qed.

(** ** Only cells that had to be split are ancestors *)
Lemma by_ancestors P m m' : mesh_inv m -> splits_by P m m' ->
  (forall i c, live_cell m i c -> Forall P (ancestors c)) -> forall i c, live_cell m' i c -> Forall P (ancestors c).
Proof.
  intros Inv S H. induction S as [|m m1 m2 k x S IH Lx Px E]; auto. intros i c L.
  pose proof (splits_inv _ _ Inv (splits_by_splits _ _ _ S)) as I1.
  destruct (split_step _ _ _ I1 E) as (c1 & kidc & Li & I' & SR & _).
  assert (c1 = x) by (unfold live_cell in *; congruence). subst c1.
  apply (after_split _ _ _ _ _ I1 Li SR) in L as [[L _]|(q & -> & ->)]; [eapply IH; eauto|].
  destruct SR as (_ & _ & Hk). destruct (Hk q) as (_ & _ & Hp & _). rewrite (ancestors_kid _ _ Hp). constructor; auto. eapply IH; eauto.
Qed.

Section Main.
Variables (files : string -> option json) (pad : bool) (now : Z) (glob : string -> list string) (ft : string -> bool).
Variable construct : nat -> string -> params -> boundary -> res (loader * data).
Variables (sq : Q -> Q) (cfg : json) (s : settings) (b : boundary) (fs : list feed).
Hypothesis Hv : validate_mesh_config files cfg = Ok tt.
Hypothesis Hs : says cfg s.
Hypothesis Hb : from_json pad now cfg = Ok b.
Hypothesis Ha : admissible b (s_width s) (s_height s).
Hypothesis Hlat : (s_lat_min s < s_lat_max s)%Q.
Hypothesis Hlat' : (s_lat_max s - s_lat_min s < 360)%Q.
Hypothesis Hp : 0 <= s_points s.
Hypothesis Hl : List.length fs = List.length (s_loaders s).
Hypothesis Hf : forall k src f, nth_error (s_loaders s) k = Some src -> nth_error fs k = Some f ->
  supplies glob construct sq b (s_points s) k src f.
Hypothesis Hn : forall f, In f fs -> ~ In (f_name f) own_keys.

Lemma fs_usable f : In f fs -> usable f.
Proof.
  intros H. apply In_nth_error in H as (k & H).
  destruct (nth_error (s_loaders s) k) as [src|] eqn:E; [eapply supplies_usable; eauto|].
  apply nth_error_None in E. assert (k < List.length fs)%nat by (apply nth_error_Some; congruence). lia.
Qed.
Lemma bounds_valid : validate_bounds b (s_width s) (s_height s) = Ok tt.
Proof.
  apply (validate_says files cfg s Hs) in Hv as (_ & _ & A1 & A2).
  destruct (from_json_says pad now cfg s b Hs Hb) as (F1 & F2 & F3 & F4 & F5 & _).
  apply steps_checked; rewrite ?F1, ?F2, ?F3, ?F4; auto.
Qed.
Lemma mesh_built srcs : exists m, build_mesh b (s_width s) (s_height s) srcs = Ok m.
Proof.
  destruct (validate_divides _ _ _ Ha bounds_valid) as (R & C & _ & HC & HR & _).
  apply build_total; auto; [exists C|exists R]; auto.
Qed.
Lemma bounds_made : exists bs, initialize_bounds b (s_width s) (s_height s) = Ok bs.
Proof.
  destruct (mesh_built []) as (m & E). unfold build_mesh in E. rewrite bounds_valid in E. cbn [bind] in E.
  unfold initialize_cellboxes in E. destruct (initialize_bounds b (s_width s) (s_height s)) as [bs|]; [eauto|discriminate].
Qed.
Lemma init_ok : exists m, mesh_builder_init files pad now glob ft construct cfg = Ok (b, m, s_depth s) /\
  build_mesh b (s_width s) (s_height s) (metas sq 0 fs) = Ok m.
Proof.
  destruct (mesh_built (metas sq 0 fs)) as (m & E). exists m. split; auto.
  unfold mesh_builder_init. rewrite Hv. cbn [bind]. rewrite Hb. cbn [bind].
  rewrite (says_width cfg s Hs), (says_height cfg s Hs). cbn [bind]. rewrite bounds_valid. cbn [bind].
  destruct bounds_made as (bs & ->). cbn [bind].
  destruct Hs as (o & r & d & p & -> & Er & _ & Ed & Fl & Ep & (vd & Vd1 & Vd2) & (vp & Vp1 & Vp2) & _).
  unfold splitting_entry, initialize_meta_data. rewrite (jget_at _ _ _ Ep), (jget_at _ _ _ Ed). cbn [bind as_arr].
  rewrite (jget_at _ _ _ Vp1), (jget_at _ _ _ Vd1). cbn [bind]. rewrite (whole_read _ _ Vp2), (whole_read _ _ Vd2). cbn [bind].
  rewrite (sources_read glob ft construct sq b (s_points s) d (s_loaders s) fs 0 Fl); auto.
  cbn [bind]. assert (X : s_points s <? 0 = false) by (apply Z.ltb_ge; auto). rewrite X.
  destruct bs; cbn [bind]; rewrite E; reflexivity.
Qed.
Theorem generated : exists fuel em em',
  (forall fuel', (fuel <= fuel')%nat -> generate files pad now glob ft construct fuel' cfg = Ok em) /\
  load_from_json (to_json em) = Ok em' /\
  em_bounds em = b /\ em_bounds em' = b /\
  em_config em = mkCfg b (s_width s) (s_height s) (s_depth s) [] /\ em_config em' = em_config em /\
  map e_id (em_cells em') = map e_id (em_cells em) /\ map e_data (em_cells em') = map e_data (em_cells em) /\
  map e_bounds (em_cells em') = map without_times (map e_bounds (em_cells em)) /\
  NoDup (map e_id (em_cells em')) /\ env_tiles (region b) (em_cells em') /\
  (~ spans_globe b -> lists_contacts touches (em_cells em') (em_graph em')) /\
  (spans_globe b -> lists_contacts touches_mod (em_cells em') (em_graph em')) /\
  (forall c, In c (em_cells em) -> as_configured sq fs b (s_width s) (s_height s) (s_depth s) c).
Proof.
  destruct init_ok as (m & Ei & Eb).
  destruct (from_json_says pad now cfg s b Hs Hb) as (F1 & F2 & F3 & F4 & F5 & _).
  assert (Lb : (lat_min b < lat_max b)%Q) by (rewrite F1, F2; auto).
  destruct (first_cell _ _ _ _ _ Ha Eb Lb) as (c0 & L0).
  assert (Rm : reachable b (s_width s) (s_height s) (metas sq 0 fs) m) by (exists m; split; auto; constructor).
  assert (Sc : forall x, In x (metas sq 0 fs) -> scalar_source x).
  { intros x Hx. destruct (metas_in _ _ _ _ Hx) as (i & f & Hi & ->). apply feed_scalar, fs_usable; auto. }
  destruct (metas_uids sq fs 0) as [Nu _].
  destruct (environmental_mesh _ _ _ _ _ _ (s_depth s) Ha Rm L0 Sc Nu) as (fu & m' & acs & Ee & Rm' & Fc & _).
  destruct (adaptive _ _ _ _ _ _ (s_depth s) Ha Rm L0) as (fu2 & m2 & Ea & _ & By & Dp & St).
  pose proof (Ee (fu + fu2)%nat ltac:(lia)) as Ef.
  destruct (environmental_mesh_agrees _ _ _ _ _ Ef) as (Es & Ids & Bds).
  rewrite Ea in Es by lia. injection Es as ->.
  set (c1 := mkCfg b (s_width s) (s_height s) (s_depth s) []).
  assert (Pd : forall ac, In ac acs -> plain_data (e_data (ecell_of ac))).
  { intros ac Hac. destruct (Forall2_in_r _ _ _ _ Fc Hac) as (c & Hc & _ & _ & Hd). cbn [e_data ecell_of]. unfold plain_data.
    assert (Km : map fst (map (fun kv : string * aval => (fst kv, jval_of (snd kv))) (ac_data ac)) = map fst (ac_data ac)) by (rewrite map_map; reflexivity).
    rewrite Km. split.
    - unfold build_environmental_mesh in Ef. rewrite Ea in Ef by lia. cbn [bind] in Ef. fold (live_list m') in Ef.
      destruct (mapM aggregate (live_list m')) as [l|] eqn:Em; [|discriminate]. injection Ef as ->.
      destruct (Forall2_in_r _ _ _ _ (mapM_Forall2 _ _ _ Em) Hac) as (c' & _ & Ag). eapply aggregate_nodup; eauto.
    - intros n Hin. apply sget_in in Hin. rewrite Hd in Hin. unfold merged_value in Hin.
      destruct (filter (fun x => String.eqb (source_name x) n) (metas sq 0 fs)) as [|x l] eqn:Ef'; [contradiction|].
      assert (Hx : In x (filter (fun x => String.eqb (source_name x) n) (metas sq 0 fs))) by (rewrite Ef'; left; auto).
      apply filter_In in Hx as [Hx En]. apply String.eqb_eq in En. destruct (metas_in _ _ _ _ Hx) as (i & f & Hf' & ->).
      rewrite feed_source_name in En. subst n. apply Hn; auto. }
  destruct (built_loads _ _ _ _ _ _ c1 Ha Rm' Ids Bds Pd eq_refl) as (em' & Ld & B1 & B2 & B3 & B4 & B5 & _ & B7 & B8 & B9).
  exists (fu + fu2)%nat, (env_of c1 m' acs), em'. split.
  { intros fuel' Hf'. unfold generate. rewrite Ei. cbn [bind]. rewrite (says_width cfg s Hs), (says_height cfg s Hs). cbn [bind].
    rewrite (Ee fuel') by lia. reflexivity. }
  split; auto. split; [reflexivity|]. split; auto. split; [reflexivity|]. split; auto.
  assert (Dr : forall c, In c (em_cells (env_of c1 m' acs)) -> drawable (e_bounds c) /\ plain_data (e_data c)).
  { cbn [env_of em_cells]. intros c Hc. apply in_map_iff in Hc as (ac & <- & Hac). split; [|apply Pd; auto].
    cbn [e_bounds ecell_of]. destruct (Forall2_in_r _ _ _ _ Fc Hac) as (x & Hx & _ & -> & _). apply live_list_In in Hx as (i & Lx).
    destruct (reachable_inv _ _ _ _ _ Ha Rm') as ((I1 & _) & _). destruct (I1 i x Lx) as (_ & ((R1 & R2) & K1 & K2 & _) & _).
    unfold drawable. cbn. auto. }
  destruct (round_trip (env_of c1 m' acs) Dr) as (em2 & Ld2 & _ & _ & T1 & T2 & T3 & _).
  { cbn [env_of em_config c1 c_region]. destruct Ha as (((V1 & V2 & V3 & V4) & V5) & _). split; auto. }
  rewrite Ld in Ld2. injection Ld2 as <-.
  do 3 (split; [assumption|]). split; auto. split; auto. split; auto. split; auto.
  cbn [env_of em_cells]. intros c Hc. apply in_map_iff in Hc as (ac & <- & Hac).
  destruct (Forall2_in_r _ _ _ _ Fc Hac) as (x & Hx & _ & Hbx & Hd). apply live_list_In in Hx as (i & Lx).
  assert (Tr : forall y, In y (metas sq 0 fs) -> trims_exactly (m_loader y)).
  { intros y Hy. apply scalar_trims. destruct (Sc y Hy) as [X _]. exact X. }
  pose proof (reachable_chains _ _ _ _ _ Ha Rm' Tr i x Lx) as Ch. rewrite Forall_forall in Ch.
  destruct (reachable_nested _ _ _ _ _ _ _ Ha Rm' Lx) as [Ne De].
  assert (An : Forall (may_split (s_depth s) (List.length (metas sq 0 fs))) (ancestors x)).
  { eapply (by_ancestors _ m m'); eauto; [apply (reachable_inv _ _ _ _ _ Ha Rm)|]. intros j y Ly.
    destruct (build_cell _ _ _ _ _ _ _ Ha Eb Ly) as (_ & P & _). rewrite (ancestors_root _ P). constructor. }
  rewrite metas_length in *. exists (map cb_bounds (ancestors x)). cbn [e_bounds e_data ecell_of]. rewrite Hbx.
  split; [exact Ne|]. rewrite map_length. split; [|split; [|split]].
  - rewrite <- De. destruct (Dp i x Lx) as [L|L]; [|lia]. destruct (build_cell _ _ _ _ _ _ _ Ha Eb L) as (_ & _ & -> & _). lia.
  - intros b' Hb'. apply in_map_iff in Hb' as (a & <- & Ia). rewrite Forall_forall in An. destruct (An a Ia) as (_ & n & _ & W).
    exists n. eapply wants_ought; [apply (Ch a); right; auto|exact W].
  - rewrite <- De. intros D O. destruct (St i x Lx D) as [_ W]. apply W. eapply wants_ought; [apply (Ch x); left; auto|].
    rewrite firstn_all. exact O.
  - intros n. rewrite sget_map_snd, Hd. change (cb_bounds x :: map cb_bounds (ancestors x)) with (map cb_bounds (x :: ancestors x)).
    apply feed_written; [exact fs_usable|]. apply Forall_forall. intros a Ia. destruct (Ch a Ia) as (Ta & _ & La & _).
    split; auto. rewrite Ta. apply Ha.
Qed.
End Main.

(** ** Any loaders *)
Lemma split_reaches fuel m depth m' : split_to_depth fuel m depth = Ok m' -> exists c0, live_cell m 0 c0.
Proof.
  unfold split_to_depth, live_cell, py_nth. cbn. destruct (cells m) as [|[c|] l]; cbn; try discriminate; eauto.
Qed.
Theorem generated_any files pad now glob ft construct fuel cfg em b cw ch :
  generate files pad now glob ft construct fuel cfg = Ok em ->
  from_json pad now cfg = Ok b -> region_num cfg "cell_width" = Ok cw -> region_num cfg "cell_height" = Ok ch ->
  admissible b cw ch ->
  em_bounds em = b /\ NoDup (map e_id (em_cells em)) /\ env_tiles (region b) (em_cells em) /\
  (forall c, In c (em_cells em) -> exists l, nested b cw ch (e_bounds c :: l)) /\
  (~ spans_globe b -> lists_contacts touches (map timeless (em_cells em)) (j_graph (to_json em))) /\
  (spans_globe b -> lists_contacts touches_mod (map timeless (em_cells em)) (j_graph (to_json em))).
Proof.
  unfold generate, mesh_builder_init. intros E Hb Hw Hh A.
  destruct (validate_mesh_config files cfg) as [[]|]; [|discriminate]. cbn [bind] in E. rewrite Hb in E. cbn [bind] in E.
  rewrite Hw, Hh in E. cbn [bind] in E.
  destruct (validate_bounds b cw ch) as [[]|]; [|discriminate]. cbn [bind] in E.
  destruct (initialize_bounds b cw ch) as [bs|]; [|discriminate]. cbn [bind] in E.
  destruct (splitting_entry cfg "minimum_datapoints" 5) as [mp|]; [|discriminate]. cbn [bind] in E.
  destruct (initialize_meta_data glob ft construct cfg b mp) as [srcs|]; [|discriminate]. cbn [bind] in E.
  match type of E with bind ?x _ = _ => match x with bind ?y _ => destruct y as [[]|]; [|discriminate] end end.
  cbn [bind] in E. destruct (build_mesh b cw ch srcs) as [m|] eqn:Eb; [|discriminate]. cbn [bind] in E.
  destruct (splitting_entry cfg "split_depth" 0) as [depth|]; [|discriminate]. cbn [bind] in E.
  destruct (build_environmental_mesh fuel m depth) as [[m' acs]|] eqn:Ee; [|discriminate]. cbn [bind fst snd] in E. injection E as <-.
  destruct (environmental_mesh_agrees _ _ _ _ _ Ee) as (Es & Ids & Bds).
  destruct (split_reaches _ _ _ _ Es) as (c0 & L0).
  assert (Rm : reachable b cw ch srcs m) by (exists m; split; auto; constructor).
  destruct (adaptive _ _ _ _ _ _ depth A Rm L0) as (fu & m2 & Ea & Rm2 & _).
  assert (m2 = m'). { apply Ok_inj. rewrite <- (Ea (fu + fuel)%nat) by lia. apply (split_more fuel); auto. lia. }
  subst m2. destruct (reachable_inv _ _ _ _ _ A Rm2) as (I & _).
  destruct (loaded_cells m' acs I Ids Bds) as (Sc & Nd).
  cbn [env_of em_bounds em_cells em_graph c_region]. fold (map timeless (map ecell_of acs)) in *.
  assert (Nd' : NoDup (map e_id (map ecell_of acs))). { unfold EnvInv.ids in Nd. revert Nd. rewrite !map_map. auto. }
  assert (Ti : env_tiles (region b) (map timeless (map ecell_of acs))).
  { eapply loaded_tiles; [|exact Sc]. apply (reachable_tiles _ _ _ _ _ A Rm2). }
  split; [reflexivity|]. split; [exact Nd'|]. split; [|split; [|split]].
  - destruct Ti as (T1 & T2 & T3). split; [|split].
    + intros x y M. destruct (T1 x y M) as (c & Hc & Mc). apply in_map_iff in Hc as (c' & <- & Hc'). exists c'. auto.
    + intros c x y Hc M. apply (T2 (timeless c)); auto. apply in_map; auto.
    + intros c c' x y Hc Hc' M M'. apply (T3 (timeless c) (timeless c') x y); auto; apply in_map; auto.
  - intros c Hc. apply in_map_iff in Hc as (ac & <- & Hac).
    assert (Hx : In (ac_bounds ac) (map cb_bounds (live_list m'))) by (rewrite <- Bds; apply in_map; auto).
    apply in_map_iff in Hx as (x & Ex & Hx). apply live_list_In in Hx as (i & Lx).
    destruct (reachable_nested _ _ _ _ _ _ _ A Rm2 Lx) as [Ne _]. exists (map cb_bounds (ancestors x)). cbn [e_bounds ecell_of]. rewrite <- Ex. exact Ne.
  - intros Ng. apply loaded_contacts; auto. eapply reachable_exact_regional; eauto.
  - intros Ng. apply loaded_contacts; auto. eapply reachable_exact_global; eauto.
Qed.
(** A negative minimum of datapoints is never accepted, though the validator lets
    it through. *)
Theorem negative_refused files pad now glob ft construct fuel cfg s b : says cfg s -> from_json pad now cfg = Ok b ->
  admissible b (s_width s) (s_height s) -> (s_lat_min s < s_lat_max s)%Q -> s_points s < 0 ->
  exists e, generate files pad now glob ft construct fuel cfg = Err e.
Proof.
  intros Hs Hb Ha Hlat Hp.
  destruct (generate files pad now glob ft construct fuel cfg) as [em|e] eqn:E; [|eauto]. exfalso.
  unfold generate, mesh_builder_init in E.
  destruct (validate_mesh_config files cfg) as [[]|]; [|discriminate]. cbn [bind] in E. rewrite Hb in E. cbn [bind] in E.
  rewrite (says_width cfg s Hs), (says_height cfg s Hs) in E. cbn [bind] in E.
  destruct (validate_bounds b (s_width s) (s_height s)) as [[]|]; [|discriminate]. cbn [bind] in E.
  destruct (initialize_bounds b (s_width s) (s_height s)) as [bs|] eqn:Eb; [|discriminate]. cbn [bind] in E.
  assert (Sp : splitting_entry cfg "minimum_datapoints" 5 = Ok (s_points s)).
  { destruct Hs as (o & r & d & p & -> & Er & _ & Ed & Fl & Ep & (vd & Vd1 & Vd2) & (vp & Vp1 & Vp2) & _).
    unfold splitting_entry. rewrite (jget_at _ _ _ Ep), (jget_at _ _ _ Vp1). cbn [bind]. apply whole_read; auto. }
  rewrite Sp in E. cbn [bind] in E.
  destruct (initialize_meta_data glob ft construct cfg b (s_points s)) as [srcs|]; [|discriminate]. cbn [bind] in E.
  destruct bs as [|b0 bs].
  - cbn [bind] in E. destruct (build_mesh b (s_width s) (s_height s) srcs) as [m|] eqn:Em; [|discriminate].
    destruct (from_json_says pad now cfg s b Hs Hb) as (F1 & F2 & _).
    destruct (first_cell _ _ _ _ _ Ha Em) as (c0 & L0); [rewrite F1, F2; auto|].
    unfold build_mesh, initialize_cellboxes in Em. rewrite Eb in Em. 
    destruct (validate_bounds b (s_width s) (s_height s)); [|discriminate]. cbn [bind] in Em.
    unfold live_cell in L0. cbn in Em.
    match type of Em with bind ?x _ = _ => destruct x; [|discriminate] end. cbn in Em. injection Em as <-. discriminate.
  - apply Z.ltb_lt in Hp. rewrite Hp in E. discriminate.
Qed.
