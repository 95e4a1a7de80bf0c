(** Proofs for C87. *)
From Verif Require Import Base Geo Graph Cell Loaders AddLoader VecLoader Builder Env Spec MeshSpec EnvSpec DataSpec QLib CaseProofs SplitGeo Dict Rep SplitCore Stage BuilderSplit Invariant Grid Build Consequences Reach MeshFacts TrimProofs AggProofs FillProofs Adaptive ChainProofs VectorChain AdaptiveFacts EnvInv EnvMerge EnvJson EnvLink PyStr Dates Config ConfigSpec ConfigProofs Params ParamSpec ParamProofs Pipeline PipeSpec PipeProofs VecHomSpec VecHomProofs MixSpec.
Open Scope string_scope.
Open Scope Z_scope.

(** ** Vector sources in a cell *)
Definition vector_like (ld : loader) : Prop :=
  NoDup (l_names ld) /\ (2 <= List.length (l_names ld))%nat /\ trims_exactly ld /\
  forall b d, exists vs, List.length vs = List.length (l_names ld) /\ l_value ld b d = Ok (combine (l_names ld) vs).
Definition vec_value (s : metadata) (n : string) (c : cellbox) : option Q := first_known (map (component s n) (c :: ancestors c)).
Lemma vector_values_cell srcs times c k s0 s : Forall (cell_data_ok srcs times) (c :: ancestors c) -> times_ok times ->
  NoDup (map uid_of srcs) -> nth_error srcs k = Some s0 -> nth_error (cb_sources c) k = Some s -> vector_like (m_loader s0) -> m_fill s0 = FillParent ->
  l_names (m_loader s) = l_names (m_loader s0) /\
  exists v, source_values c s = Ok v /\ map fst v = l_names (m_loader s0) /\
    forall name, In name (l_names (m_loader s0)) -> sget v name = Some (Num (vec_value s0 name c)).
Proof.
  intros Ch Tt Nd Hk Hs (N1 & N2 & Tr & Vl) Hf.
  assert (At : forall a, In a (c :: ancestors c) -> exists sa d, nth_error (cb_sources a) k = Some sa /\ meta_head sa = meta_head s0 /\
     find_source (l_uid (m_loader s0)) (cb_sources a) = Ok sa /\
     l_value (m_loader s0) (cb_bounds a) (m_subset sa) = Ok d /\ map fst d = l_names (m_loader s0) /\
     forall name, In name (l_names (m_loader s0)) -> sget d name = Some (component s0 name a)).
  { intros a Ha. rewrite Forall_forall in Ch. pose proof (Ch a Ha) as (T1 & T2 & T3 & T4).
    destruct (Forall2_nth _ _ _ _ _ T4 Hk) as (sa & Esa & Hh & Hsel).
    assert (Ed : m_subset sa = l_trim (m_loader s0) (cb_bounds a) (m_subset s0)).
    { eapply selected_unique; [exact Hsel|]. apply Tr; auto. rewrite T1. exact Tt. }
    destruct (Vl (cb_bounds a) (m_subset sa)) as (vs & Lv & Ex).
    exists sa, (combine (l_names (m_loader s0)) vs). split; auto. split; auto. split; [|split; auto; split].
    - replace (l_uid (m_loader s0)) with (uid_of sa); [|unfold uid_of; injection Hh as -> _ _; auto].
      eapply find_source_nth; eauto. rewrite (heads_uids srcs times a) by (apply Ch; auto). auto.
    - apply combine_fst; auto.
    - intros name Hin. unfold component. rewrite <- Ed, Ex.
      destruct (sget (combine (l_names (m_loader s0)) vs) name) as [v|] eqn:E; auto. exfalso.
      assert (In name (map fst (combine (l_names (m_loader s0)) vs))) as H by (rewrite combine_fst; auto).
      apply sget_keys in H as (v & H). congruence. }
  destruct (At c (or_introl eq_refl)) as (s' & d & E1 & E2 & E3 & E4 & E5 & E6). rewrite Hs in E1. injection E1 as <-.
  injection E2 as L1 _ L3. split; [rewrite L1; reflexivity|]. rewrite <- L1 in *.
  apply (vector_fill_parent c s d (component s0)); auto; try congruence.
  - intros name E. rewrite E in N2. cbn in N2. lia.
  - intros name a Hin Ha. destruct (At a (or_intror Ha)) as (sa & da & _ & _ & F1 & F2 & _ & F3). exists sa, da. split; auto.
Qed.

(** ** Merging scalars and vectors *)
Definition is_vec (s : metadata) : bool := match l_names (m_loader s) with [_] => false | _ => true end.
Definition has_name (n : string) (s : metadata) : bool := is_vec s && existsb (String.eqb n) (l_names (m_loader s)).
Definition scalar_part (srcs : list metadata) : list metadata := filter (fun s => negb (is_vec s)) srcs.
Definition mixed_value (n : string) (srcs : list metadata) (c : cellbox) : option aval :=
  match find (has_name n) srcs with
  | Some s => Some (Num (vec_value s n c))
  | None => merged_value n (scalar_part srcs) c
  end.
Definition contributes (c : cellbox) (s s0 : metadata) : Prop :=
  (is_vec s0 = false /\ l_names (m_loader s0) = [source_name s0] /\ l_names (m_loader s) = [source_name s0] /\ source_values c s = Ok [(source_name s0, Num (filled_value s0 c))]) \/
  (is_vec s0 = true /\ (2 <= List.length (l_names (m_loader s0)))%nat /\ NoDup (l_names (m_loader s0)) /\ l_names (m_loader s) = l_names (m_loader s0) /\
   exists v, source_values c s = Ok v /\ map fst v = l_names (m_loader s0) /\
     forall n, In n (l_names (m_loader s0)) -> sget v n = Some (Num (vec_value s0 n c))).
Definition apart (srcs : list metadata) : Prop :=
  (forall s n, In s srcs -> In n (l_names (m_loader s)) -> no_comma n) /\
  (forall i j s t n, i <> j -> nth_error srcs i = Some s -> nth_error srcs j = Some t -> is_vec s = true ->
     In n (l_names (m_loader s)) -> ~ In n (l_names (m_loader t))).

Lemma merge_step agg l n0 v0 : sget agg n0 = merged n0 l ->
  exists agg', merge_values agg n0 [(n0, Num v0)] = Ok agg' /\ sget agg' n0 = merged n0 (l ++ [(n0, v0)])%list /\
    forall n, n <> n0 -> sget agg' n = sget agg n.
Proof.
  intros H. unfold merge_values. rewrite H. unfold merged. rewrite values_named_app. unfold values_named at 3. cbn [filter fst]. rewrite String.eqb_refl. cbn [map snd].
  assert (U : forall n, n <> n0 -> sget (supdate agg [(n0, Num v0)]) n = sget agg n).
  { intros n N. cbn [supdate fold_left fst snd]. rewrite FillProofs.sget_sset. destruct (String.eqb_spec n n0); [contradiction|reflexivity]. }
  assert (V : sget (supdate agg [(n0, Num v0)]) n0 = Some (Num v0)) by (cbn [supdate fold_left fst snd]; rewrite FillProofs.sget_sset, String.eqb_refl; reflexivity).
  destruct (values_named n0 l) as [|v vs] eqn:Ev.
  - eexists. split; [reflexivity|]. split; [|exact U]. rewrite V. cbn. destruct v0; reflexivity.
  - destruct (first_known (v :: vs)) as [q|] eqn:Ef; cbn [isnan bind].
    + eexists. split; [reflexivity|]. split; [|reflexivity]. rewrite H. unfold merged. rewrite Ev.
      change ((v :: vs) ++ [v0])%list with (v :: vs ++ [v0])%list. cbn [app]. change (v :: vs ++ [v0])%list with ((v :: vs) ++ [v0])%list. rewrite first_known_app, Ef. reflexivity.
    + eexists. split; [reflexivity|]. split; [|exact U]. rewrite V. cbn [app]. change (v :: vs ++ [v0])%list with ((v :: vs) ++ [v0])%list. rewrite first_known_app, Ef. destruct v0; reflexivity.
Qed.
Lemma sget_supdate {V} (e : sdict V) : forall d n, NoDup (map fst e) -> sget (supdate d e) n = match sget e n with Some x => Some x | None => sget d n end.
Proof.
  unfold supdate. induction e as [|[k v] e IH]; intros d n N; [reflexivity|]. cbn [fold_left fst snd map] in *. inversion N as [|? ? N1 N2]; subst.
  rewrite IH by assumption. cbn [sget]. rewrite FillProofs.sget_sset. destruct (String.eqb_spec n k) as [->|Ne]; [|destruct (sget e n); reflexivity].
  destruct (sget e k) eqn:E; [|reflexivity]. exfalso. apply N1. apply FillProofs.sget_keys. eauto.
Qed.
Lemma join_comma a b l : exists x y, join_names (a :: b :: l) = (x ++ "," ++ y)%string.
Proof. exists a, (join_names (b :: l)). unfold join_names. destruct l; reflexivity. Qed.
Lemma join_not_plain names n : (2 <= List.length names)%nat -> no_comma n -> n <> join_names names.
Proof. destruct names as [|a [|b l]]; cbn [List.length]; intros H N; try lia. destruct (join_comma a b l) as (x & y & E). rewrite E. apply N. Qed.
Lemma find_app {A} (f : A -> bool) l l' : find f (l ++ l')%list = match find f l with Some x => Some x | None => find f l' end.
Proof. induction l as [|a l IH]; [reflexivity|]. cbn. destruct (f a); [reflexivity|exact IH]. Qed.
Lemma has_name_spec n s : has_name n s = true <-> is_vec s = true /\ In n (l_names (m_loader s)).
Proof.
  unfold has_name. rewrite andb_true_iff. split; intros [A B]; split; auto.
  - apply existsb_exists in B as (x & I & E). apply String.eqb_eq in E. subst. exact I.
  - apply existsb_exists. exists n. split; [exact B|apply String.eqb_refl].
Qed.
Lemma merged_app n l l' c : merged_value n (l ++ l')%list c = merged n (map (fun s => (source_name s, filled_value s c)) l ++ map (fun s => (source_name s, filled_value s c)) l')%list.
Proof. rewrite <- map_app. symmetry. apply merged_eq. Qed.

Theorem aggregate_mixed c srcs : Forall2 (contributes c) (cb_sources c) srcs -> apart srcs ->
  exists ac, aggregate c = Ok ac /\ ac_bounds ac = cb_bounds c /\ ac_id ac = cb_id c /\ forall n, sget (ac_data ac) n = mixed_value n srcs c.
Proof.
  intros F Ap. unfold aggregate.
  assert (X : forall ss rest, Forall2 (contributes c) ss rest ->
    forall done agg, apart (done ++ rest)%list -> (forall s, In s done -> is_vec s = false -> l_names (m_loader s) = [source_name s]) -> (forall n, sget agg n = mixed_value n done c) ->
    exists d, foldM (fun agg s => v <- source_values c s ;; merge_values agg (join_names (l_names (m_loader s))) v) agg ss = Ok d /\
      forall n, sget d n = mixed_value n (done ++ rest)%list c).
  { clear F Ap srcs. induction 1 as [|s s0 ss rest H F IH]; intros done agg [A1 A2] Sd Ha; cbn [foldM].
    - exists agg. rewrite app_nil_r. auto.
    - assert (Fr : forall n s1, In s1 done -> has_name n s1 = true -> ~ In n (l_names (m_loader s0))).
      { intros n s1 I1 E. apply has_name_spec in E as [V I]. apply In_nth_error in I1 as (i & Hi).
        assert (Li : (i < List.length done)%nat) by (apply nth_error_Some; congruence).
        apply (A2 i (List.length done) s1 s0 n); auto; try lia; [rewrite nth_error_app1; auto|].
        rewrite nth_error_app2, Nat.sub_diag by lia. reflexivity. }
      assert (Nf : forall n, In n (l_names (m_loader s0)) -> find (has_name n) done = None).
      { intros n I. destruct (find (has_name n) done) as [s1|] eqn:E; [|reflexivity]. apply find_some in E as [E1 E2]. exfalso. exact (Fr n s1 E1 E2 I). }
      assert (Go : forall agg', (forall n, sget agg' n = mixed_value n (done ++ [s0])%list c) ->
        exists d, foldM (fun agg s => v <- source_values c s ;; merge_values agg (join_names (l_names (m_loader s))) v) agg' ss = Ok d /\
          forall n, sget d n = mixed_value n (done ++ s0 :: rest)%list c).
      { intros agg' Ha'. change (s0 :: rest) with ([s0] ++ rest)%list in *. rewrite app_assoc in *. apply (IH (done ++ [s0])%list agg'); auto.
        - split; assumption.
        - intros s1 I V. apply in_app_iff in I as [I|[<-|[]]]; [auto|]. destruct H as [(_ & E & _)|(V' & _)]; [exact E|congruence]. }
      destruct H as [(V & N0 & N1 & Sv)|(V & L2 & Nd & N1 & v & Sv & Kv & Gv)].
      + rewrite Sv. cbn [bind]. rewrite N1, join_single.
        set (n0 := source_name s0) in *. set (v0 := filled_value s0 c) in *.
        assert (H0 : sget agg n0 = merged n0 (map (fun s => (source_name s, filled_value s c)) (scalar_part done))).
        { rewrite Ha. unfold mixed_value. rewrite Nf; [symmetry; apply merged_eq|]. rewrite N0. left. reflexivity. }
        destruct (merge_step agg _ n0 v0 H0) as (agg' & E & G0 & G). rewrite E. cbn [bind]. apply Go. intros n.
        unfold mixed_value. rewrite find_app. cbn [find]. assert (Hf : has_name n s0 = false) by (unfold has_name; rewrite V; reflexivity). rewrite Hf.
        unfold scalar_part. rewrite filter_app. cbn [filter]. rewrite V. cbn [negb]. fold (scalar_part done).
        destruct (String.eqb_spec n n0) as [->|Ne].
        * rewrite G0, Nf by (rewrite N0; left; reflexivity). rewrite merged_app. reflexivity.
        * rewrite G, Ha by exact Ne. unfold mixed_value. destruct (find (has_name n) done); [reflexivity|].
          rewrite merged_app, <- merged_eq. unfold merged. rewrite values_named_app. cbn [map]. unfold values_named at 3. cbn [filter fst].
          fold n0. destruct (String.eqb_spec n0 n); [congruence|]. cbn [map]. rewrite app_nil_r. reflexivity.
      + rewrite Sv. cbn [bind]. rewrite N1. unfold merge_values.
        assert (K : sget agg (join_names (l_names (m_loader s0))) = None).
        { rewrite Ha. unfold mixed_value. destruct (find _ done) as [s1|] eqn:E.
          - exfalso. apply find_some in E as [E1 E2]. apply has_name_spec in E2 as [_ I].
            eapply join_not_plain; [exact L2| |reflexivity]. apply (A1 s1); [apply in_or_app; auto|exact I].
          - unfold merged_value. destruct (filter _ (scalar_part done)) as [|s1 l] eqn:Ef; [reflexivity|]. exfalso.
            assert (I : In s1 (filter (fun s => String.eqb (source_name s) (join_names (l_names (m_loader s0)))) (scalar_part done))) by (rewrite Ef; left; reflexivity).
            apply filter_In in I as [I Eq]. apply String.eqb_eq in Eq. apply filter_In in I as [I Nv]. apply negb_true_iff in Nv.
            eapply join_not_plain; [exact L2| |exact Eq]. apply (A1 s1); [apply in_or_app; auto|]. rewrite (Sd s1 I Nv). left. reflexivity. }
        rewrite K. cbn [bind]. apply Go. intros n. rewrite sget_supdate by (rewrite Kv; exact Nd).
        unfold mixed_value. rewrite find_app. cbn [find]. unfold scalar_part. rewrite filter_app. cbn [filter]. rewrite V. cbn [negb]. rewrite app_nil_r. fold (scalar_part done).
        destruct (has_name n s0) eqn:Hn.
        * pose proof (proj2 (proj1 (has_name_spec n s0) Hn)) as I. rewrite (Gv n I), (Nf n I). reflexivity.
        * assert (G : sget v n = None).
          { destruct (sget v n) eqn:E; [|reflexivity]. exfalso. assert (I : In n (map fst v)) by (apply FillProofs.sget_keys; eauto). rewrite Kv in I.
            assert (Y : has_name n s0 = true) by (apply has_name_spec; auto). congruence. }
          rewrite G, Ha. unfold mixed_value. destruct (find (has_name n) done); reflexivity. }
  destruct (X _ _ F [] []) as (d & E & H); auto. { intros s []. }
  rewrite E. cbn [bind]. eexists. split; [reflexivity|]. cbn. auto.
Qed.

(** ** The built mesh *)
Definition mix_source (s : metadata) : Prop :=
  (is_vec s = false /\ scalar_source s) \/ (is_vec s = true /\ vector_like (m_loader s) /\ m_fill s = FillParent).
Lemma mix_trims s : mix_source s -> trims_exactly (m_loader s).
Proof. intros [(_ & X & _)|(_ & (_ & _ & T & _) & _)]; [apply scalar_trims; exact X|exact T]. Qed.
Lemma source_name_single s : scalar_source s -> l_names (m_loader s) = [source_name s].
Proof. intros (X & _). destruct (scalar_names _ X) as (n & E). unfold source_name. rewrite E. reflexivity. Qed.
Lemma aggregate_mix b cw ch srcs m i c : admissible b cw ch -> reachable b cw ch srcs m ->
  (forall s, In s srcs -> mix_source s) -> NoDup (map uid_of srcs) -> apart srcs -> live_cell m i c ->
  exists ac, aggregate c = Ok ac /\ ac_bounds ac = cb_bounds c /\ ac_id ac = cb_id c /\ forall n, sget (ac_data ac) n = mixed_value n srcs c.
Proof.
  intros A Rm Hs Nd Ap L.
  assert (Tr : forall s, In s srcs -> trims_exactly (m_loader s)) by (intros s Hi; apply mix_trims; auto).
  pose proof (reachable_chains b cw ch srcs m A Rm Tr i c L) as Ch.
  apply aggregate_mixed; [|exact Ap].
  inversion Ch as [|? ? (T1 & T2 & T3 & T4) _]; subst.
  assert (Len : List.length (cb_sources c) = List.length srcs) by (symmetry; eapply Forall2_len; eauto).
  assert (G : forall k s0 s, nth_error srcs k = Some s0 -> nth_error (cb_sources c) k = Some s -> contributes c s s0).
  { intros k s0 s H1 H2. destruct (Hs s0 (nth_error_In _ _ H1)) as [(V & Sc)|(V & Vl & Fp)].
    - left. split; [exact V|]. split; [apply source_name_single; exact Sc|].
      apply (cell_values srcs (time_range b) c s0 k s); auto. apply A.
    - right. split; [exact V|]. pose proof Vl as (N1 & N2 & _). split; [exact N2|]. split; [exact N1|].
      apply (vector_values_cell srcs (time_range b) c k s0 s); auto. apply A. }
  clear - G Len. revert G Len. generalize (cb_sources c). induction srcs as [|s0 srcs IH]; intros [|s l] G Len; cbn in Len; try discriminate; constructor.
  - apply (G 0%nat); auto.
  - apply IH; [|lia]. intros k a a' H1 H2. apply (G (S k)); auto.
Qed.
Theorem environmental_mix b cw ch srcs m c0 depth : admissible b cw ch -> reachable b cw ch srcs m -> live_cell m 0 c0 ->
  (forall s, In s srcs -> mix_source s) -> NoDup (map uid_of srcs) -> apart srcs ->
  exists fuel m' acs, (forall fuel', (fuel <= fuel')%nat -> build_environmental_mesh fuel' m depth = Ok (m', acs)) /\
    reachable b cw ch srcs m' /\
    Forall2 (fun c ac => ac_id ac = cb_id c /\ ac_bounds ac = cb_bounds c /\
                         forall n, sget (ac_data ac) n = mixed_value n srcs c) (live_list m') acs.
Proof.
  intros A Rm L0 Hs Nd Ap. destruct (adaptive b cw ch srcs m c0 depth A Rm L0) as (fuel & m' & E & Rm' & _).
  assert (Ag : forall c, In c (live_list m') -> exists ac, aggregate c = Ok ac /\ ac_bounds ac = cb_bounds c /\ ac_id ac = cb_id c /\
    forall n, sget (ac_data ac) n = mixed_value n srcs c).
  { intros c Hc. apply live_list_In in Hc as (i & L). eapply aggregate_mix; eauto. }
  destruct (mapM_total aggregate (live_list m')) as (acs & Ea). { intros c Hc. destruct (Ag c Hc) as (ac & H & _). eauto. }
  pose proof (mapM_Forall2 _ _ _ Ea) as F.
  exists fuel, m', acs. split.
  { intros fuel' Hf. unfold build_environmental_mesh. rewrite E by auto. cbn [bind]. fold (live_list m'). rewrite Ea. reflexivity. }
  split; auto. eapply Forall2_impl'; [|exact F]. cbn. intros c ac Hc H. destruct (Ag c Hc) as (ac' & H1 & H2 & H3 & H4).
  rewrite H in H1. injection H1 as <-. auto.
Qed.

(** ** Sources *)
Lemma vector_total_xr sqrt agg n d : In agg vector_aggs -> exists vs, vector_values_xr sqrt agg n d = Ok vs /\ List.length vs = n.
Proof.
  intros H. cbn in H. unfold vector_values_xr.
  destruct (Nat.eqb (List.length d) 0); [eexists; split; [reflexivity|rewrite map_length, seq_length; auto]|].
  destruct (all_nan (map mag2 d)); [eexists; split; [reflexivity|rewrite map_length, seq_length; auto]|].
  decompose [or] H; subst; try contradiction; cbn [String.eqb Ascii.eqb Bool.eqb]; eexists; (split; [reflexivity|]);
  try (rewrite map_length, seq_length; auto);
  match goal with |- context [arg_extreme ?f ?a ?b] => destruct (arg_extreme f a b) as [[? ?]|] end; rewrite map_length, seq_length; auto.
Qed.
Lemma sget_combine {V} names : forall (vs : list V) n i, NoDup names -> List.length vs = List.length names -> nth_error names i = Some n ->
  sget (combine names vs) n = nth_error vs i.
Proof.
  induction names as [|a names IH]; intros vs n i N L E; [destruct i; discriminate|].
  destruct vs as [|v vs]; [discriminate|]. inversion N as [|? ? N1 N2]; subst. destruct i as [|i]; cbn in E |- *.
  - injection E as ->. rewrite String.eqb_refl. reflexivity.
  - destruct (String.eqb_spec n a) as [->|]; [exfalso; apply N1; eapply nth_error_In; eauto|]. apply IH; auto.
Qed.
Section Sources.
Variable sq : Q -> Q.
Definition vec_meta (k : nat) (v : vfeed) : metadata := mkMeta (vfeed_loader sq k v) (v_conds v) FillParent (v_data v).
Definition meta_of (k : nat) (s : source) : metadata := match s with Scalar f => feed_meta sq k f | Vector v => vec_meta k v end.
Definition good (s : source) : Prop :=
  match s with
  | Scalar f => usable f
  | Vector v => In (v_agg v) vector_aggs /\ NoDup (v_names v) /\ (2 <= List.length (v_names v))%nat /\ (v_xr v = true -> v_conds v = []) /\
      (forall p, In p (v_data v) -> List.length (p_vals p) = List.length (v_names v))
  end.
Fixpoint mmetas (k : nat) (ss : list source) : list metadata :=
  match ss with [] => [] | s :: ss' => meta_of k s :: mmetas (S k) ss' end.
Lemma mmetas_nth ss : forall k i s, nth_error ss i = Some s -> nth_error (mmetas k ss) i = Some (meta_of (k + i) s).
Proof.
  induction ss as [|g ss IH]; intros k [|i] s H; try discriminate; cbn in *.
  - injection H as ->. rewrite Nat.add_0_r. auto.
  - rewrite (IH (S k) i s H). do 2 f_equal. lia.
Qed.
Lemma mmetas_length ss : forall k, List.length (mmetas k ss) = List.length ss.
Proof. induction ss as [|f ss IH]; intros k; cbn; auto. Qed.
Lemma mmetas_nth_inv ss k i m : nth_error (mmetas k ss) i = Some m -> exists s, nth_error ss i = Some s /\ m = meta_of (k + i) s.
Proof.
  intros H. assert (L : (i < List.length ss)%nat) by (rewrite <- (mmetas_length ss k); apply nth_error_Some; congruence).
  destruct (nth_error ss i) as [s|] eqn:E; [|apply nth_error_None in E; lia]. exists s. split; [reflexivity|].
  rewrite (mmetas_nth ss k i s E) in H. congruence.
Qed.
Lemma mmetas_in ss s k : In s (mmetas k ss) -> exists i f, In f ss /\ s = meta_of i f.
Proof. intros H. apply In_nth_error in H as (i & H). apply mmetas_nth_inv in H as (f & F & ->). exists (k + i)%nat, f. split; [eapply nth_error_In; eauto|reflexivity]. Qed.
Lemma mmetas_in_inv ss f : In f ss -> forall k, exists i, In (meta_of i f) (mmetas k ss).
Proof. intros H k. apply In_nth_error in H as (i & H). exists (k + i)%nat. eapply nth_error_In. apply mmetas_nth. exact H. Qed.
Lemma mmetas_firstn n ss : forall k, firstn n (mmetas k ss) = mmetas k (firstn n ss).
Proof. revert n. induction ss as [|f ss IH]; intros [|n] k; cbn; auto. rewrite IH. auto. Qed.
Lemma meta_uid k s : uid_of (meta_of k s) = Z.of_nat k.
Proof. destruct s as [f|v]; cbn [meta_of]; [apply feed_uid|]. unfold uid_of, vec_meta, vfeed_loader. cbn. destruct (v_xr v); reflexivity. Qed.
Lemma meta_names k s : l_names (m_loader (meta_of k s)) = names_of s.
Proof. destruct s as [f|v]; cbn [meta_of names_of]; [apply feed_names|]. unfold vec_meta, vfeed_loader. cbn. destruct (v_xr v); reflexivity. Qed.
Lemma mmetas_uids ss : forall k, NoDup (map uid_of (mmetas k ss)) /\ forall z, In z (map uid_of (mmetas k ss)) -> Z.of_nat k <= z.
Proof.
  induction ss as [|g ss IH]; intros k; cbn [mmetas map]; [split; [constructor|intros z []]|]. destruct (IH (S k)) as [N L]. rewrite meta_uid. split.
  - constructor; auto. intros H. apply L in H. lia.
  - intros z [<-|H]; [lia|]. apply L in H. lia.
Qed.
Lemma scalar_not_vec k f : is_vec (meta_of k (Scalar f)) = false.
Proof. unfold is_vec. rewrite meta_names. reflexivity. Qed.
Lemma vector_is_vec k v : (2 <= List.length (v_names v))%nat -> is_vec (meta_of k (Vector v)) = true.
Proof. unfold is_vec. rewrite meta_names. cbn [names_of]. destruct (v_names v) as [|a [|b l]]; cbn; intros; try lia; reflexivity. Qed.
Lemma vec_like k v : good (Vector v) -> vector_like (vfeed_loader sq k v).
Proof.
  intros (A & N & L & _). unfold vector_like. replace (l_names (vfeed_loader sq k v)) with (v_names v) by (unfold vfeed_loader; destruct (v_xr v); reflexivity).
  split; [exact N|]. split; [exact L|]. unfold vfeed_loader. destruct (v_xr v).
  - split; [intros b d H T; cbn; rewrite xr_trim_rows_df by auto; apply df_trim_selects; auto|].
    intros b d. destruct (vector_total_xr sq (v_agg v) (List.length (v_names v)) d A) as (vs & E & Lv). exists vs. split; [exact Lv|]. cbn. rewrite E. reflexivity.
  - split; [apply vector_trims_exactly|]. intros b d. destruct (vector_total sq (v_agg v) (List.length (v_names v)) d A) as (vs & E & Lv).
    exists vs. split; [exact Lv|]. cbn. unfold vector_value_df. rewrite E. reflexivity.
Qed.
Lemma good_mix k s : good s -> mix_source (meta_of k s).
Proof.
  destruct s as [f|v]; intros G.
  - left. split; [apply scalar_not_vec|]. apply feed_scalar. exact G.
  - right. split; [apply vector_is_vec; apply G|]. split; [|reflexivity]. apply vec_like. exact G.
Qed.
Lemma mmetas_apart ss : names_apart ss -> (forall s, In s ss -> good s) -> apart (mmetas 0 ss).
Proof.
  intros (A1 & A2 & A3) G. split.
  - intros s n H I. destruct (mmetas_in _ _ _ H) as (i & f & Hf & ->). rewrite meta_names in I. apply (A1 f n Hf I).
  - intros i j s t n Ne Hi Hj V I. apply mmetas_nth_inv in Hi as (s0 & Hi & ->). apply mmetas_nth_inv in Hj as (t0 & Hj & ->).
    rewrite meta_names in *. destruct s0 as [f|v]; [rewrite scalar_not_vec in V; discriminate|]. eapply A3; eauto.
Qed.

(** The i-th component in a cell. *)
Lemma vec_own k v c i n : good (Vector v) -> plain_cell c -> nth_error (v_names v) i = Some n ->
  exists vs, own_vector sq v (cb_bounds c) vs /\ nth_error vs i = Some (component (vec_meta k v) n c).
Proof.
  intros (A & N & L & _) (P1 & P2) E. unfold component. cbn [vec_meta m_loader m_subset]. unfold own_vector.
  assert (Se : selected (belongs (cb_bounds c)) (v_data v) (df_trim (cb_bounds c) (v_data v))) by (apply df_trim_selects; auto).
  assert (X : forall vs : list (option Q), List.length vs = List.length (v_names v) -> nth_error vs i =
     Some match sget (combine (v_names v) vs) n with Some w => w | None => None end).
  { intros vs Lv. rewrite (sget_combine (v_names v) vs n i N Lv E). destruct (nth_error vs i) eqn:En; [reflexivity|].
    apply nth_error_None in En. assert (i < List.length (v_names v))%nat by (apply nth_error_Some; congruence). lia. }
  unfold vfeed_loader. destruct (v_xr v) eqn:Ex; cbn [l_trim l_value vector_xr vector_df].
  - rewrite xr_trim_rows_df by auto. destruct (vector_total_xr sq (v_agg v) (List.length (v_names v)) (df_trim (cb_bounds c) (v_data v)) A) as (vs & Ev & Lv).
    rewrite Ev. cbn [bind]. exists vs. split; [|apply X; exact Lv]. eexists. split; [exact Se|exact Ev].
  - unfold vector_value_df. destruct (vector_total sq (v_agg v) (List.length (v_names v)) (df_trim (cb_bounds c) (v_data v)) A) as (vs & Ev & Lv).
    rewrite Ev. cbn [bind]. exists vs. split; [|apply X; exact Lv]. eexists. split; [exact Se|exact Ev].
Qed.
Lemma vec_filled k v c i n : good (Vector v) -> Forall plain_cell (c :: ancestors c) -> nth_error (v_names v) i = Some n ->
  component_filled sq v i (map cb_bounds (c :: ancestors c)) (vec_value (vec_meta k v) n c).
Proof.
  intros G Ch E. unfold vec_value. induction Ch as [|a l P Ch IH]; cbn [map first_known]; [constructor|].
  destruct (vec_own k v a i n G P E) as (vs & O & Nv). destruct (component (vec_meta k v) n a) as [q|].
  - eapply cf_own; eauto.
  - eapply cf_parent; eauto.
Qed.
Lemma scalar_part_metas ss : (forall s, In s ss -> good s) -> forall k n c, Forall plain_cell (c :: ancestors c) ->
  exists vs, Forall2 (fun f v => filled sq f (map cb_bounds (c :: ancestors c)) v) (filter (fun f => String.eqb (f_name f) n) (scalars ss)) vs /\
    vs = map (fun s => filled_value s c) (filter (fun s => String.eqb (source_name s) n) (scalar_part (mmetas k ss))).
Proof.
  intros G. induction ss as [|s ss IH]; intros k n c Ch; [exists []; split; [constructor|reflexivity]|].
  destruct (IH (fun s I => G s (or_intror I)) (S k) n c Ch) as (vs & F & Ev). unfold scalar_part, scalars. cbn [mmetas filter flat_map].
  destruct s as [f|v].
  - rewrite scalar_not_vec. cbn [negb filter app]. fold (scalars ss). fold (scalar_part (mmetas (S k) ss)). cbn [meta_of]. rewrite feed_source_name.
    destruct (String.eqb (f_name f) n); [|exists vs; split; auto].
    exists (filled_value (feed_meta sq k f) c :: vs). split; [|cbn [map]; congruence]. constructor; [|exact F].
    apply feed_filled; auto. apply (G (Scalar f)). left. reflexivity.
  - rewrite vector_is_vec by (apply (G (Vector v)); left; reflexivity). cbn [negb app]. exists vs. split; [exact F|exact Ev].
Qed.
Lemma mixed_holds ss c n : names_apart ss -> (forall s, In s ss -> good s) -> Forall plain_cell (c :: ancestors c) ->
  holds sq ss (map cb_bounds (c :: ancestors c)) n (option_map jval_of (mixed_value n (mmetas 0 ss) c)).
Proof.
  intros Ap G Ch. unfold mixed_value. destruct (find (has_name n) (mmetas 0 ss)) as [s|] eqn:E.
  - apply find_some in E as [E1 E2]. apply has_name_spec in E2 as [V I]. destruct (mmetas_in _ _ _ E1) as (k & s0 & I0 & ->). rewrite meta_names in I.
    destruct s0 as [f|v]; [rewrite scalar_not_vec in V; discriminate|]. left. cbn [names_of meta_of] in *. apply In_nth_error in I as (i & I).
    exists v, i, (vec_value (vec_meta k v) n c). split; [exact I0|]. split; [exact I|]. split; [|reflexivity].
    apply vec_filled; auto.
  - right. split.
    + intros v Iv In'. destruct (mmetas_in_inv ss _ Iv 0%nat) as (i & Hi). apply (find_none _ _ E) in Hi.
      assert (Y : has_name n (meta_of i (Vector v)) = true); [|congruence]. apply has_name_spec. rewrite meta_names. split; [|exact In'].
      apply vector_is_vec. apply (G _ Iv).
    + destruct (scalar_part_metas ss G 0%nat n c Ch) as (vs & F & Ev). exists vs. split; [exact F|]. unfold merged_value. subst vs.
      destruct (filter _ (scalar_part (mmetas 0 ss))); reflexivity.
Qed.

(** ** Answers *)
Lemma scalars_in ss f : In f (scalars ss) <-> In (Scalar f) ss.
Proof.
  unfold scalars. rewrite in_flat_map. split.
  - intros ([g|v] & I & H); cbn in H; [|destruct H]. destruct H as [<-|[]]. exact I.
  - intros I. exists (Scalar f). split; [exact I|left; reflexivity].
Qed.
Lemma firstn_in {A} n (l : list A) x : In x (firstn n l) -> In x l.
Proof. revert n. induction l as [|y l IH]; intros [|n] H; cbn in *; try contradiction. destruct H as [H|H]; [left; exact H|right; eapply IH; exact H]. Qed.
Lemma selected_sub {A} (P : A -> Prop) l l' x : selected P l l' -> In x l' -> In x l.
Proof. intros S. induction S as [|y l l' Py S IH|y l l' Py S IH]; cbn; [auto| |]; intros H; [destruct H as [H|H]; [left; exact H|]|]; right; auto. Qed.
Lemma mix_answers ss times c n h : (forall s, In s ss -> good s) -> cell_data_ok (mmetas 0 ss) times c -> times_ok times ->
  (answers c n h <-> source_says (firstn n ss) (cb_bounds c) h).
Proof.
  intros G (Tc & _ & Lc & F) T. rewrite <- Tc in T. apply (Forall2_firstn _ n) in F. rewrite mmetas_firstn in F. unfold answers, source_says, says_hom. split.
  - intros (s & cd & Hs & Hc & ->). destruct (Forall2_in_r _ _ _ _ F Hs) as (s0 & H0 & Hh & Sel).
    destruct (mmetas_in _ _ _ H0) as (i & [f|v] & Hf & ->); injection Hh as E1 E2 _.
    + left. exists f, cd, (m_subset s). split; [apply scalars_in; exact Hf|]. split; [rewrite <- E2; auto|]. split; [exact Sel|]. rewrite E1. apply feed_hom.
    + destruct (G _ (firstn_in _ _ _ Hf)) as (_ & _ & _ & X & R). right. exists v, cd, (m_subset s). split; [exact Hf|]. split; [rewrite <- E2; auto|]. split; [exact Sel|].
      apply (vector_answered _ (v_data v) (cb_bounds c)); auto. { intros p I. apply R. exact (selected_sub _ _ _ _ Sel I). }
      rewrite E1. unfold vfeed_loader. destruct (v_xr v); [|reflexivity]. exfalso. cbn in E2. rewrite E2, X in Hc by reflexivity. destruct Hc.
  - intros [(f & cd & pts & Hf & Hc & Sel & ->)|(v & cd & pts & Hf & Hc & Sel & An)].
    + apply scalars_in in Hf. destruct (mmetas_in_inv _ _ Hf 0%nat) as (i & Hi).
      destruct (Forall2_in_l _ _ _ _ F Hi) as (s & Hs & Hh & Sel'). injection Hh as E1 E2 _.
      exists s, cd. split; auto. split; [rewrite E2; auto|]. rewrite E1, feed_hom. do 2 f_equal. eapply selected_fun; [exact Sel|exact Sel'].
    + destruct (mmetas_in_inv _ _ Hf 0%nat) as (i & Hi). destruct (Forall2_in_l _ _ _ _ F Hi) as (s & Hs & Hh & Sel'). injection Hh as E1 E2 _.
      destruct (G _ (firstn_in _ _ _ Hf)) as (_ & _ & _ & X & R).
      apply (vector_answered _ (v_data v) (cb_bounds c)) in An; auto. 2: { intros p I. apply R. exact (selected_sub _ _ _ _ Sel I). }
      exists s, cd. split; auto. split; [rewrite E2; auto|]. rewrite E1, An. unfold vfeed_loader. destruct (v_xr v); [|reflexivity]. exfalso. rewrite X in Hc by reflexivity. destruct Hc.
Qed.
Lemma mix_wants ss times c n : (forall s, In s ss -> good s) -> cell_data_ok (mmetas 0 ss) times c -> times_ok times ->
  (wants_split c n <-> must_split (firstn n ss) (cb_bounds c)).
Proof. intros G D T. unfold wants_split, must_split. rewrite !(mix_answers ss times c n) by assumption. tauto. Qed.
End Sources.

(** ** Reading the sources *)
Lemma vector_condition_read name j c : vector_condition_says name j c -> (x <- jget j name ;; vector_cond_of x) = Ok c.
Proof.
  intros (o & p & -> & E & Cu & Cd). rewrite (jget_at _ _ _ E). cbn [bind]. unfold vector_cond_of. cbn [as_obj bind]. rewrite Cu.
  apply condition_read in Cd. cbn [jget] in Cd. destruct (sget p "dmag") as [x|]; [exact Cd|discriminate].
Qed.
Lemma vector_conditions_read p names cs : (2 <= List.length names)%nat -> vector_conditions_say p (String.concat "," names) cs -> splitting_conditions p names = Ok cs.
Proof.
  intros L. unfold vector_conditions_say, splitting_conditions. destruct (sget p "splitting_conditions") as [j|]; [|intros ->; auto].
  intros (l & -> & F). cbn [as_arr bind]. change (String.concat "," names) with (join_names names) in F.
  induction F as [|j c l cs H F IH]; auto. cbn [mapM]. destruct names as [|a [|b names]]; cbn [List.length] in L; try lia.
  rewrite (vector_condition_read _ _ _ H). cbn [bind]. rewrite IH. reflexivity.
Qed.
Lemma vec_read glob ft construct sq b min_dp k src v j : (2 <= List.length (v_names v))%nat ->
  loader_says j src -> provides glob construct sq b min_dp k src (Vector v) ->
  source_metadata glob ft construct b min_dp k j = Ok (vec_meta sq k v).
Proof.
  destruct src as [nm ps].
  intros L (o & -> & L1 & L2 & _) ((cls & p & p' & E1 & E2 & E3 & _ & Tc) & _ & _ & _ & _ & Hc & Hf). cbn [fst snd] in *.
  unfold source_metadata. rewrite (jget_at _ _ _ L1), (jget_at _ _ _ L2). cbn [bind as_str as_obj].
  rewrite E1. cbn [bind fst snd]. rewrite E2. cbn [bind]. rewrite E3. cbn [bind fst snd]. rewrite (not_table _ Tc).
  replace (l_names (vfeed_loader sq k v)) with (v_names v) by (unfold vfeed_loader; destruct (v_xr v); reflexivity).
  assert (U : forall x, In x ["splitting_conditions"; "value_fill_types"] -> sget p' x = sget ps x).
  { intros x Hx. rewrite (defaults_untouched _ _ _ x) by (try exact E2; cbn in Hx |- *; tauto). apply (factory_untouched _ _ _ _ _ _ _ Hx E1). }
  rewrite (vector_conditions_read p' (v_names v) (v_conds v) L); [|unfold vector_conditions_say in *; rewrite U by (left; reflexivity); exact Hc]. cbn [bind].
  pose proof (fill_read ft p' FillParent (fill_ext ps p' FillParent (U _ (or_intror (or_introl eq_refl))) Hf)) as Fr.
  destruct (check_value_fill_type ft p') as [w|]; [|discriminate]. cbn [bind] in *. rewrite Fr. reflexivity.
Qed.
Lemma mix_read glob ft construct sq b min_dp d ls ss : forall k,
  Forall2 loader_says d ls ->
  (forall i src s, nth_error ls i = Some src -> nth_error ss i = Some s -> provides glob construct sq b min_dp (k + i) src s) ->
  (forall v, In (Vector v) ss -> (2 <= List.length (v_names v))%nat) ->
  List.length ss = List.length ls ->
  mapM (fun kj => source_metadata glob ft construct b min_dp (fst kj) (snd kj)) (combine (seq k (List.length d)) d) = Ok (mmetas sq k ss).
Proof.
  revert ls ss. induction d as [|j d IH]; intros ls ss k F Hs L2 Len; inversion F as [|? src ? ls' Hj F']; subst.
  - destruct ss; [reflexivity|discriminate].
  - destruct ss as [|s ss]; [discriminate|]. cbn [List.length seq combine mapM fst snd].
    assert (R : source_metadata glob ft construct b min_dp k j = Ok (meta_of sq k s)).
    { specialize (Hs 0%nat src s eq_refl eq_refl). rewrite Nat.add_0_r in Hs. destruct s as [f|v].
      - apply (source_read glob ft construct sq b min_dp k src f j Hj Hs).
      - apply (vec_read glob ft construct sq b min_dp k src v j); auto. apply L2. left. reflexivity. }
    rewrite R. cbn [bind]. rewrite (IH ls' ss (S k) F'); [reflexivity| | |cbn in Len; lia].
    + intros i s0 f0 H1 H2. specialize (Hs (S i) s0 f0 H1 H2). replace (S k + i)%nat with (k + S i)%nat by lia. exact Hs.
    + intros v I. apply L2. right. exact I.
Qed.

Section Mixed.
Variables (files : string -> option json) (pad : bool) (now : Z) (glob : string -> list string) (ft : string -> bool).
Variable construct : nat -> string -> params -> boundary -> res (loader * data).
Variables (sq : Q -> Q) (cfg : json) (s : settings) (b : boundary) (ss : list source).
Hypothesis Hv : validate_mesh_config files cfg = Ok tt.
Hypothesis Hs : says cfg s.
Hypothesis Hb : from_json pad now cfg = Ok b.
Hypothesis Ha : admissible b (s_width s) (s_height s).
Hypothesis Hlat : (s_lat_min s < s_lat_max s)%Q.
Hypothesis Hlat' : (s_lat_max s - s_lat_min s < 360)%Q.
Hypothesis Hp : 0 <= s_points s.
Hypothesis Hl : List.length ss = List.length (s_loaders s).
Hypothesis Hf : forall k src f, nth_error (s_loaders s) k = Some src -> nth_error ss k = Some f ->
  provides glob construct sq b (s_points s) k src f.
Hypothesis Hn : names_apart ss.

Lemma ss_good f : In f ss -> good f.
Proof.
  intros H. pose proof H as I. apply In_nth_error in H as (k & H).
  destruct (nth_error (s_loaders s) k) as [src|] eqn:E.
  - pose proof (Hf k src f E H) as P. destruct f as [f|v]; cbn [provides good] in *; [eapply supplies_usable; eauto|].
    destruct P as (_ & A & _ & X & R & _). destruct Hn as (_ & N & _). destruct (N v I) as [N1 N2]. auto 6.
  - apply nth_error_None in E. assert (k < List.length ss)%nat by (apply nth_error_Some; congruence). lia.
Qed.
Lemma mix_bounds_valid : validate_bounds b (s_width s) (s_height s) = Ok tt.
Proof.
  pose proof Hv as V. apply (validate_says files cfg s Hs) in V as (_ & _ & A1 & A2).
  destruct (from_json_says pad now cfg s b Hs Hb) as (F1 & F2 & F3 & F4 & F5 & _).
  apply steps_checked; rewrite ?F1, ?F2, ?F3, ?F4; auto.
Qed.
Lemma mix_mesh_built srcs : exists m, build_mesh b (s_width s) (s_height s) srcs = Ok m.
Proof.
  destruct (validate_divides _ _ _ Ha mix_bounds_valid) as (R & C & _ & HC & HR & _).
  apply build_total; auto; [exists C|exists R]; auto.
Qed.
Lemma mix_bounds_made : exists bs, initialize_bounds b (s_width s) (s_height s) = Ok bs.
Proof.
  destruct (mix_mesh_built []) as (m & E). unfold build_mesh in E. rewrite mix_bounds_valid in E. cbn [bind] in E.
  unfold initialize_cellboxes in E. destruct (initialize_bounds b (s_width s) (s_height s)) as [bs|]; [eauto|discriminate].
Qed.
Lemma mix_init_ok : exists m, mesh_builder_init files pad now glob ft construct cfg = Ok (b, m, s_depth s) /\
  build_mesh b (s_width s) (s_height s) (mmetas sq 0 ss) = Ok m.
Proof.
  destruct (mix_mesh_built (mmetas sq 0 ss)) as (m & E). exists m. split; auto.
  unfold mesh_builder_init. rewrite Hv. cbn [bind]. rewrite Hb. cbn [bind].
  rewrite (says_width cfg s Hs), (says_height cfg s Hs). cbn [bind]. rewrite mix_bounds_valid. cbn [bind].
  destruct mix_bounds_made as (bs & ->). cbn [bind].
  pose proof Hs as (o & r & d & p & Eo & Er & _ & Ed & Fl & Ep & (vd & Vd1 & Vd2) & (vp & Vp1 & Vp2) & _). rewrite Eo.
  unfold splitting_entry, initialize_meta_data. rewrite (jget_at _ _ _ Ep), (jget_at _ _ _ Ed). cbn [bind as_arr].
  rewrite (jget_at _ _ _ Vp1), (jget_at _ _ _ Vd1). cbn [bind]. rewrite (whole_read _ _ Vp2), (whole_read _ _ Vd2). cbn [bind].
  rewrite (mix_read glob ft construct sq b (s_points s) d (s_loaders s) ss 0 Fl); auto; [|intros v I; apply (ss_good _ I)].
  cbn [bind]. assert (X : s_points s <? 0 = false) by (apply Z.ltb_ge; auto). rewrite X.
  destruct bs; cbn [bind]; rewrite E; reflexivity.
Qed.
Lemma mixed_named n c : mixed_value n (mmetas sq 0 ss) c <> None -> exists f, In f ss /\ In n (names_of f).
Proof.
  unfold mixed_value. destruct (find _ _) as [x|] eqn:E.
  - intros _. apply find_some in E as [E1 E2]. apply has_name_spec in E2 as [_ I]. destruct (mmetas_in _ _ _ _ E1) as (i & f & Hi & ->).
    rewrite meta_names in I. eauto.
  - unfold merged_value. destruct (filter _ (scalar_part _)) as [|x l] eqn:Ef; [congruence|]. intros _.
    assert (I : In x (filter (fun x => String.eqb (source_name x) n) (scalar_part (mmetas sq 0 ss)))) by (rewrite Ef; left; reflexivity).
    apply filter_In in I as [I En]. apply String.eqb_eq in En. apply filter_In in I as [I V]. destruct (mmetas_in _ _ _ _ I) as (i & f & Hi & ->).
    destruct f as [f|v]; [|rewrite vector_is_vec in V by (apply (ss_good _ Hi)); discriminate].
    cbn [meta_of] in En. rewrite feed_source_name in En. exists (Scalar f). split; [exact Hi|left; exact En].
Qed.
Theorem mixed : exists fuel em em',
  (forall fuel', (fuel <= fuel')%nat -> generate files pad now glob ft construct fuel' cfg = Ok em) /\
  load_from_json (to_json em) = Ok em' /\
  em_bounds em = b /\ em_bounds em' = b /\
  em_config em = mkCfg b (s_width s) (s_height s) (s_depth s) [] /\ em_config em' = em_config em /\
  map e_id (em_cells em') = map e_id (em_cells em) /\ map e_data (em_cells em') = map e_data (em_cells em) /\
  map e_bounds (em_cells em') = map without_times (map e_bounds (em_cells em)) /\
  NoDup (map e_id (em_cells em')) /\ env_tiles (region b) (em_cells em') /\
  (~ spans_globe b -> lists_contacts touches (em_cells em') (em_graph em')) /\
  (spans_globe b -> lists_contacts touches_mod (em_cells em') (em_graph em')) /\
  (forall c, In c (em_cells em) -> as_wanted sq ss b (s_width s) (s_height s) (s_depth s) c).
Proof.
  destruct mix_init_ok as (m & Ei & Eb).
  destruct (from_json_says pad now cfg s b Hs Hb) as (F1 & F2 & F3 & F4 & F5 & _).
  assert (Lb : (lat_min b < lat_max b)%Q) by (rewrite F1, F2; auto).
  destruct (first_cell _ _ _ _ _ Ha Eb Lb) as (c0 & L0).
  assert (Rm : reachable b (s_width s) (s_height s) (mmetas sq 0 ss) m) by (exists m; split; auto; constructor).
  assert (Sc : forall x, In x (mmetas sq 0 ss) -> mix_source x).
  { intros x Hx. destruct (mmetas_in _ _ _ _ Hx) as (i & f & Hi & ->). apply good_mix, ss_good; auto. }
  destruct (mmetas_uids sq ss 0) as [Nu _].
  destruct (environmental_mix _ _ _ _ _ _ (s_depth s) Ha Rm L0 Sc Nu (mmetas_apart sq ss Hn ss_good)) as (fu & m' & acs & Ee & Rm' & Fc).
  destruct (adaptive _ _ _ _ _ _ (s_depth s) Ha Rm L0) as (fu2 & m2 & Ea & _ & By & Dp & St).
  pose proof (Ee (fu + fu2)%nat ltac:(lia)) as Ef.
  destruct (environmental_mesh_agrees _ _ _ _ _ Ef) as (Es & Ids & Bds).
  rewrite Ea in Es by lia. injection Es as ->.
  set (c1 := mkCfg b (s_width s) (s_height s) (s_depth s) []).
  assert (Pd : forall ac, In ac acs -> plain_data (e_data (ecell_of ac))).
  { intros ac Hac. destruct (Forall2_in_r _ _ _ _ Fc Hac) as (c & Hc & _ & _ & Hd). cbn [e_data ecell_of]. unfold plain_data.
    assert (Km : map fst (map (fun kv : string * aval => (fst kv, jval_of (snd kv))) (ac_data ac)) = map fst (ac_data ac)) by (rewrite map_map; reflexivity).
    rewrite Km. split.
    - unfold build_environmental_mesh in Ef. rewrite Ea in Ef by lia. cbn [bind] in Ef. fold (live_list m') in Ef.
      destruct (mapM aggregate (live_list m')) as [l|] eqn:Em; [|discriminate]. injection Ef as ->.
      destruct (Forall2_in_r _ _ _ _ (mapM_Forall2 _ _ _ Em) Hac) as (c' & _ & Ag). eapply aggregate_nodup; eauto.
    - intros n Hin. apply sget_in in Hin. rewrite Hd in Hin. destruct (mixed_named n c Hin) as (f & I1 & I2). apply (proj1 Hn f n I1 I2). }
  destruct (built_loads _ _ _ _ _ _ c1 Ha Rm' Ids Bds Pd eq_refl) as (em' & Ld & B1 & B2 & B3 & B4 & B5 & _ & B7 & B8 & B9).
  exists (fu + fu2)%nat, (env_of c1 m' acs), em'. split.
  { intros fuel' Hf'. unfold generate. rewrite Ei. cbn [bind]. rewrite (says_width cfg s Hs), (says_height cfg s Hs). cbn [bind].
    rewrite (Ee fuel') by lia. reflexivity. }
  split; auto. split; [reflexivity|]. split; auto. split; [reflexivity|]. split; auto.
  assert (Dr : forall c, In c (em_cells (env_of c1 m' acs)) -> drawable (e_bounds c) /\ plain_data (e_data c)).
  { cbn [env_of em_cells]. intros c Hc. apply in_map_iff in Hc as (ac & <- & Hac). split; [|apply Pd; auto].
    cbn [e_bounds ecell_of]. destruct (Forall2_in_r _ _ _ _ Fc Hac) as (x & Hx & _ & -> & _). apply live_list_In in Hx as (i & Lx).
    destruct (reachable_inv _ _ _ _ _ Ha Rm') as ((I1 & _) & _). destruct (I1 i x Lx) as (_ & ((R1 & R2) & K1 & K2 & _) & _).
    unfold drawable. cbn. auto. }
  destruct (round_trip (env_of c1 m' acs) Dr) as (em2 & Ld2 & _ & _ & T1 & T2 & T3 & _).
  { cbn [env_of em_config c1 c_region]. destruct Ha as (((V1 & V2 & V3 & V4) & V5) & _). split; auto. }
  rewrite Ld in Ld2. injection Ld2 as <-.
  do 3 (split; [assumption|]). split; auto. split; auto. split; auto. split; auto.
  cbn [env_of em_cells]. intros c Hc. apply in_map_iff in Hc as (ac & <- & Hac).
  destruct (Forall2_in_r _ _ _ _ Fc Hac) as (x & Hx & _ & Hbx & Hd). apply live_list_In in Hx as (i & Lx).
  assert (Tr : forall y, In y (mmetas sq 0 ss) -> trims_exactly (m_loader y)) by (intros y Hy; apply mix_trims; auto).
  pose proof (reachable_chains _ _ _ _ _ Ha Rm' Tr i x Lx) as Ch. rewrite Forall_forall in Ch.
  destruct (reachable_nested _ _ _ _ _ _ _ Ha Rm' Lx) as [Ne De].
  assert (Tt : times_ok (time_range b)) by apply Ha.
  assert (An : Forall (may_split (s_depth s) (List.length (mmetas sq 0 ss))) (ancestors x)).
  { eapply (by_ancestors _ m m'); eauto; [apply (reachable_inv _ _ _ _ _ Ha Rm)|]. intros j y Ly.
    destruct (build_cell _ _ _ _ _ _ _ Ha Eb Ly) as (_ & P & _). rewrite (ancestors_root _ P). constructor. }
  rewrite mmetas_length in *. exists (map cb_bounds (ancestors x)). cbn [e_bounds e_data ecell_of]. rewrite Hbx.
  split; [exact Ne|]. rewrite map_length. split; [|split; [|split]].
  - rewrite <- De. destruct (Dp i x Lx) as [L|L]; [|lia]. destruct (build_cell _ _ _ _ _ _ _ Ha Eb L) as (_ & _ & -> & _). lia.
  - intros b' Hb'. apply in_map_iff in Hb' as (a & <- & Ia). rewrite Forall_forall in An. destruct (An a Ia) as (_ & n & _ & W).
    exists n. eapply mix_wants; [exact ss_good|apply (Ch a); right; auto|exact Tt|exact W].
  - rewrite <- De. intros D O. destruct (St i x Lx D) as [_ W]. apply W. eapply mix_wants; [exact ss_good|apply (Ch x); left; auto|exact Tt|].
    rewrite firstn_all. exact O.
  - intros n. rewrite sget_map_snd, Hd. change (cb_bounds x :: map cb_bounds (ancestors x)) with (map cb_bounds (x :: ancestors x)).
    apply mixed_holds; [exact Hn|exact ss_good|]. apply Forall_forall. intros a Ia. destruct (Ch a Ia) as (Ta & _ & La & _).
    split; auto. rewrite Ta. exact Tt.
Qed.
End Mixed.

(** ** What a cell holds is settled *)
Lemma own_vector_fun sq v b vs vs' : own_vector sq v b vs -> own_vector sq v b vs' -> vs = vs'.
Proof. intros (p & S & E) (p' & S' & E'). rewrite (selected_fun _ _ _ S _ S') in E. congruence. Qed.
Lemma component_fun sq v i l q : component_filled sq v i l q -> forall q', component_filled sq v i l q' -> q = q'.
Proof.
  induction 1 as [b l vs q O E|b l vs o O E C IH|]; intros q' C'; inversion C' as [? ? vs' ? O' E'|? ? vs' ? O' E' C''|]; subst; auto;
    rewrite (own_vector_fun _ _ _ _ _ O O') in E; rewrite E in E'; try discriminate; try congruence; auto.
Qed.
Lemma own_value_fun sq f b v v' : own_value sq f b v -> own_value sq f b v' -> v = v'.
Proof. intros (p & S & E) (p' & S' & E'). rewrite (selected_fun _ _ _ S _ S') in E. congruence. Qed.
Lemma filled_fun sq f l v : filled sq f l v -> forall v', filled sq f l v' -> v = v'.
Proof.
  induction 1 as [b l q O|b l q O F|b l v O F Fl IH|F]; intros v' H; inversion H as [? ? ? O'|? ? ? O' F'|? ? ? O' F' Fl'|]; subst; auto;
    try (pose proof (own_value_fun _ _ _ _ _ O O') as Y; congruence).
Qed.
Lemma written_fun sq fs l n o o' : written sq fs l n o -> written sq fs l n o' -> o = o'.
Proof.
  intros (vs & F & ->) (vs' & F' & ->). assert (X : vs = vs').
  { revert vs' F'. induction F as [|f v fs' vs H F IH]; intros vs' F'; inversion F'; subst; auto. f_equal; [eapply filled_fun; eauto|auto]. }
  subst. reflexivity.
Qed.
Theorem holds_fun sq ss l n o o' : names_apart ss -> holds sq ss l n o -> holds sq ss l n o' -> o = o'.
Proof.
  intros (_ & A2 & A3) [(v & i & q & I & N & C & ->)|(No & W)] [(v' & i' & q' & I' & N' & C' & ->)|(No' & W')].
  - apply In_nth_error in I as (k & I). apply In_nth_error in I' as (k' & I').
    assert (k = k').
    { destruct (Nat.eq_dec k k') as [|Ne]; auto. exfalso. apply (A3 k k' v (Vector v') n Ne I I'); eapply nth_error_In; eauto. }
    subst k'. rewrite I in I'. injection I' as <-. destruct (A2 v (nth_error_In _ _ I)) as (Nd & _).
    assert (i = i'). { rewrite NoDup_nth_error in Nd. apply Nd; [apply nth_error_Some; congruence|congruence]. }
    subst i'. rewrite (component_fun _ _ _ _ _ C _ C'). reflexivity.
  - exfalso. apply (No' v I). eapply nth_error_In; eauto.
  - exfalso. apply (No v' I'). eapply nth_error_In; eauto.
  - eapply written_fun; eauto.
Qed.
