(** Aggregation of cells: filling from ancestors, merging of sources. *)
From Verif Require Import Base Geo Graph Cell Loaders Builder Spec MeshSpec DataSpec QLib CaseProofs SplitGeo Dict Rep SplitCore Invariant Grid Build Consequences Reach TrimProofs AggProofs.
Open Scope Z_scope.

(** ** String dictionaries *)
Lemma sget_sset {V} (d : sdict V) k v k' : sget (sset d k v) k' = if String.eqb k' k then Some v else sget d k'.
Proof.
  induction d as [|[a b] d IH]; cbn.
  - destruct (String.eqb k' k); auto.
  - destruct (String.eqb_spec k a) as [->|N]; cbn.
    + destruct (String.eqb_spec k' a); auto.
    + rewrite IH. destruct (String.eqb_spec k' a) as [->|], (String.eqb_spec a k) as [->|]; auto; congruence.
Qed.
Lemma sget_avals d k : sget (to_avals d) k = option_map Num (sget d k).
Proof. induction d as [|[a b] d IH]; cbn; auto. destruct (String.eqb k a); auto. Qed.
Lemma sset_keys {V} (d : sdict V) k v : In k (map fst d) -> map fst (sset d k v) = map fst d.
Proof.
  induction d as [|[a b] d IH]; cbn; [tauto|]. intros H. destruct (String.eqb_spec k a) as [->|N]; cbn; auto.
  f_equal. apply IH. destruct H; [congruence|auto].
Qed.
Lemma sget_keys {V} (d : sdict V) k : (exists v, sget d k = Some v) <-> In k (map fst d).
Proof.
  induction d as [|[a b] d IH]; cbn.
  - split; [intros (? & H); discriminate|tauto].
  - destruct (String.eqb_spec k a) as [->|N]; [split; eauto|]. rewrite IH. split; auto. intros [H|H]; auto; congruence.
Qed.

(** ** Scalar sources *)
Lemma parent_value_ok ld name (val : cellbox -> option Q) : forall parents v x,
  sget v name = Some x -> List.length v = 1%nat ->
  (forall a, In a parents -> exists s, find_source (l_uid ld) (cb_sources a) = Ok s /\
     l_value ld (cb_bounds a) (m_subset s) = Ok [(name, val a)]) ->
  exists v', parent_value ld name v parents = Ok v' /\ List.length v' = 1%nat /\
    sget v' name = Some (first_known (x :: map val parents)).
Proof.
  induction parents as [|p parents IH]; intros v x Hx Hl H; cbn [parent_value map].
  - exists v. split; auto. split; auto. rewrite Hx. destruct x; auto.
  - rewrite Hx. destruct x as [q|].
    + exists v. split; auto.
    + destruct (H p (or_introl eq_refl)) as (s & E1 & E2). rewrite E1. cbn [bind]. rewrite E2. cbn [bind].
      destruct (IH [(name, val p)] (val p)) as (v' & E & L & G).
      * cbn. rewrite String.eqb_refl. auto.
      * auto.
      * intros a Ha. apply H. right; auto.
      * exists v'. split; auto.
Qed.

Lemma single_dict {V} (d : sdict V) name x : List.length d = 1%nat -> sget d name = Some x -> d = [(name, x)].
Proof.
  destruct d as [|[a b] [|? ?]]; cbn; try discriminate. intros _.
  destruct (String.eqb_spec name a) as [->|]; [|discriminate]. intros [= ->]. auto.
Qed.

Theorem scalar_fill_parent c s name val : l_names (m_loader s) = [name] -> m_fill s = FillParent ->
  l_value (m_loader s) (cb_bounds c) (m_subset s) = Ok [(name, val c)] ->
  (forall a, In a (ancestors c) -> exists sa, find_source (l_uid (m_loader s)) (cb_sources a) = Ok sa /\
     l_value (m_loader s) (cb_bounds a) (m_subset sa) = Ok [(name, val a)]) ->
  source_values c s = Ok [(name, Num (first_known (map val (c :: ancestors c))))].
Proof.
  intros Hn Hf Hv Ha. unfold source_values. rewrite Hv. cbn [bind]. rewrite Hn. cbn [sget]. rewrite String.eqb_refl.
  cbn [map first_known]. destruct (val c) as [q|] eqn:Ec; [reflexivity|]. rewrite Hf.
  destruct (parent_value_ok (m_loader s) name val (ancestors c) [(name, None)] None) as (v' & E & L & G); auto.
  { cbn. rewrite String.eqb_refl. auto. }
  rewrite E. cbn [bind]. rewrite (single_dict _ _ _ L G). reflexivity.
Qed.
Theorem scalar_fill_number c s name q v : l_names (m_loader s) = [name] -> m_fill s = FillNum q ->
  l_value (m_loader s) (cb_bounds c) (m_subset s) = Ok [(name, v)] ->
  source_values c s = Ok [(name, Num (Some (match v with Some x => x | None => q end)))].
Proof.
  intros Hn Hf Hv. unfold source_values. rewrite Hv. cbn [bind]. rewrite Hn. cbn [sget]. rewrite String.eqb_refl.
  destruct v as [x|]; [reflexivity|]. rewrite Hf. cbn. rewrite String.eqb_refl. reflexivity.
Qed.

(** ** Vector sources filled from the parents *)
Lemma parent_component_ok ld name val : forall parents cur,
  (forall a, In a parents -> value_in ld name a (val a)) ->
  parent_component ld name cur parents = Ok (first_known (cur :: map val parents)).
Proof.
  induction parents as [|p parents IH]; intros cur H; cbn [parent_component map].
  - destruct cur; auto.
  - destruct cur as [q|]; auto. destruct (H p (or_introl eq_refl)) as (s & d & E1 & E2 & E3).
    rewrite E1. cbn [bind]. rewrite E2. cbn [bind]. rewrite E3. rewrite IH; auto.
    intros a Ha. apply H. right; auto.
Qed.

Theorem vector_fill_parent c s d (val : string -> cellbox -> option Q) :
  (forall name, l_names (m_loader s) <> [name]) -> NoDup (l_names (m_loader s)) -> m_fill s = FillParent ->
  l_value (m_loader s) (cb_bounds c) (m_subset s) = Ok d -> map fst d = l_names (m_loader s) ->
  (forall name, In name (l_names (m_loader s)) -> sget d name = Some (val name c)) ->
  (forall name a, In name (l_names (m_loader s)) -> In a (ancestors c) -> value_in (m_loader s) name a (val name a)) ->
  exists v, source_values c s = Ok v /\ map fst v = l_names (m_loader s) /\
    forall name, In name (l_names (m_loader s)) ->
      sget v name = Some (Num (first_known (map (val name) (c :: ancestors c)))).
Proof.
  intros Hn Nd Hf Hv Hk Hc Ha.
  assert (Es : source_values c s = check_vector_data c s (to_avals d)).
  { unfold source_values. rewrite Hv. cbn [bind]. destruct (l_names (m_loader s)) as [|n [|? ?]]; auto. exfalso. apply (Hn n). auto. }
  rewrite Es. unfold check_vector_data. rewrite Hf. clear Es Hv.
  set (names := l_names (m_loader s)) in *.
  assert (X : forall todo v, (forall name, In name todo -> In name names) -> NoDup todo ->
    map fst v = names -> (forall name, In name todo -> sget v name = Some (Num (val name c))) ->
    exists v', foldM (fun v name =>
      match sget v name with
      | Some cur => n <- isnan cur;;
          (if n then x <- parent_component (m_loader s) name None (ancestors c);; Ok (sset v name (Num x)) else Ok v)
      | None => Err KeyError
      end) v todo = Ok v' /\ map fst v' = names /\
      (forall name, In name todo -> sget v' name = Some (Num (first_known (map (val name) (c :: ancestors c))))) /\
      (forall name, ~ In name todo -> sget v' name = sget v name)).
  { induction todo as [|n todo IH]; intros v Sub Nt Kv Gv.
    - exists v. cbn. split; auto. split; auto. split; [tauto|auto].
    - cbn [foldM]. rewrite (Gv n (or_introl eq_refl)). inversion Nt as [|? ? N1 N2]; subst.
      destruct (val n c) as [q|] eqn:En; cbn [isnan bind].
      + destruct (IH v) as (v' & E & K & G & O); auto.
        { intros; apply Sub; right; auto. } { intros; apply Gv; right; auto. }
        exists v'. split; auto. split; auto. split.
        * intros name [<-|Hn']; auto. rewrite O by auto. rewrite (Gv n) by (left; auto). cbn [map first_known]. rewrite En. auto.
        * intros name Hn'. apply O. intros C. apply Hn'. right; auto.
      + rewrite (parent_component_ok (m_loader s) n (val n)).
        2:{ intros a Hb. apply Ha; auto. apply Sub. left; auto. }
        cbn [bind]. set (x := first_known (None :: map (val n) (ancestors c))).
        destruct (IH (sset v n (Num x))) as (v' & E & K & G & O); auto.
        { intros; apply Sub; right; auto. }
        { rewrite sset_keys; auto. apply sget_keys. rewrite (Gv n) by (left; auto). eauto. }
        { intros name Hn'. rewrite sget_sset. destruct (String.eqb_spec name n) as [->|]; [contradiction|]. apply Gv. right; auto. }
        exists v'. split; auto. split; auto. split.
        * intros name [<-|Hn']; auto. rewrite O by auto. rewrite sget_sset, String.eqb_refl. unfold x. cbn [map]. rewrite En. auto.
        * intros name Hn'. rewrite O by (intros C; apply Hn'; right; auto). rewrite sget_sset.
          destruct (String.eqb_spec name n) as [->|]; auto. exfalso. apply Hn'. left; auto. }
  destruct (X names (to_avals d)) as (v & E & K & G & _); auto.
  - rewrite <- Hk. unfold to_avals. rewrite map_map. apply map_ext. auto.
  - intros name Hn'. rewrite sget_avals, Hc; auto.
  - exists v. split; auto.
Qed.

(** ** Merging the sources *)
(** Values per name: the sources sharing a name, in order. *)
Definition values_named (n : string) (l : list (string * option Q)) : list (option Q) :=
  map snd (filter (fun nv => String.eqb (fst nv) n) l).
Definition merged (n : string) (l : list (string * option Q)) : option aval :=
  match values_named n l with [] => None | vs => Some (Num (first_known vs)) end.

Lemma first_known_app l l' : first_known (l ++ l') = match first_known l with Some q => Some q | None => first_known l' end.
Proof. induction l as [|[q|] l IH]; cbn; auto. Qed.
Lemma values_named_app n l l' : values_named n (l ++ l') = values_named n l ++ values_named n l'.
Proof. unfold values_named. rewrite filter_app, map_app. auto. Qed.

Lemma join_single name : join_names [name] = name.
Proof. reflexivity. Qed.

Theorem aggregate_scalars c nvs :
  Forall2 (fun s nv => l_names (m_loader s) = [fst nv] /\ source_values c s = Ok [(fst nv, Num (snd nv))]) (cb_sources c) nvs ->
  exists ac, aggregate c = Ok ac /\ ac_bounds ac = cb_bounds c /\ ac_id ac = cb_id c /\
    forall n, sget (ac_data ac) n = merged n nvs.
Proof.
  intros F. unfold aggregate.
  assert (X : forall srcs nvs, Forall2 (fun s nv => l_names (m_loader s) = [fst nv] /\ source_values c s = Ok [(fst nv, Num (snd nv))]) srcs nvs ->
    forall done agg, (forall n, sget agg n = merged n done) ->
    exists d, foldM (fun agg s => v <- source_values c s ;; merge_values agg (join_names (l_names (m_loader s))) v) agg srcs = Ok d /\
      forall n, sget d n = merged n (done ++ nvs)).
  { clear F nvs. induction 1 as [|s [n0 v0] srcs nvs [H1 H2] F IH]; intros done agg Ha; cbn [foldM].
    - exists agg. rewrite app_nil_r. auto.
    - cbn [fst snd] in *. rewrite H2. cbn [bind]. rewrite H1, join_single. unfold merge_values.
      assert (Hstep : exists agg', match sget agg n0 with
          | Some old => n <- isnan old;; Ok (if n then supdate agg [(n0, Num v0)] else agg)
          | None => Ok (supdate agg [(n0, Num v0)]) end = Ok agg' /\
          forall n, sget agg' n = merged n (done ++ [(n0, v0)])).
      { pose proof (Ha n0) as H0. unfold merged in H0.
        destruct (values_named n0 done) as [|v vs] eqn:Ev; rewrite H0.
        - eexists. split; [reflexivity|]. intros n. cbn [supdate fold_left fst snd]. rewrite sget_sset, Ha.
          unfold merged. rewrite values_named_app. unfold values_named at 3. cbn [filter fst].
          destruct (String.eqb_spec n n0) as [->|N].
          + rewrite String.eqb_refl, Ev. cbn. destruct v0; auto.
          + destruct (String.eqb_spec n0 n); [congruence|]. cbn [map]. rewrite app_nil_r. auto.
        - destruct (first_known (v :: vs)) as [q|] eqn:Ef; cbn [isnan bind].
          + eexists. split; [reflexivity|]. intros n. rewrite Ha. unfold merged. rewrite values_named_app.
            unfold values_named at 3. cbn [filter fst]. destruct (String.eqb_spec n0 n) as [<-|N].
            * rewrite Ev. cbn [map snd app]. change (v :: vs ++ [v0]) with ((v :: vs) ++ [v0]). rewrite first_known_app, Ef. auto.
            * cbn [map]. rewrite app_nil_r. auto.
          + eexists. split; [reflexivity|]. intros n. cbn [supdate fold_left fst snd]. rewrite sget_sset, Ha.
            unfold merged. rewrite values_named_app. unfold values_named at 3. cbn [filter fst].
            destruct (String.eqb_spec n n0) as [->|N].
            * rewrite String.eqb_refl, Ev. cbn [map snd app]. change (v :: vs ++ [v0]) with ((v :: vs) ++ [v0]). rewrite first_known_app, Ef. destruct v0; auto.
            * destruct (String.eqb_spec n0 n); [congruence|]. cbn [map]. rewrite app_nil_r. auto. }
      destruct Hstep as (agg' & E & Ha'). rewrite E. cbn [bind].
      destruct (IH (done ++ [(n0, v0)]) agg' Ha') as (d & Ed & Hd). exists d. split; auto.
      intros n. rewrite Hd, <- app_assoc. auto. }
  destruct (X _ _ F [] []) as (d & E & H). { intros n. reflexivity. }
  rewrite E. cbn [bind]. eexists. split; [reflexivity|]. cbn. auto.
Qed.
