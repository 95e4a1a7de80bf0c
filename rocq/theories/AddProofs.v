(** Adding a source to an existing mesh. *)
From Verif Require Import Base Geo Graph Cell Loaders Builder Spec MeshSpec DataSpec TrimProofs AddLoader.
Open Scope Z_scope.

Lemma foldM_app {A B} (f : B -> A -> res B) l1 l2 b :
  foldM f b (l1 ++ l2) = bind (foldM f b l1) (fun b' => foldM f b' l2).
Proof.
  revert b. induction l1 as [|x l1 IH]; intros b; cbn; [reflexivity|].
  destruct (f b x) as [b'|e]; cbn; [apply IH | reflexivity].
Qed.

Lemma aggregate_added c s :
  aggregate (add_source s c) =
  (ac <- aggregate c ;;
   v <- source_values (add_source s c) s ;;
   d <- merge_values (ac_data ac) (join_names (l_names (m_loader s))) v ;;
   Ok (mkAgg (cb_bounds c) d (cb_id c))).
Proof.
  destruct c as [b i dep srcs p]. unfold aggregate. cbn [cb_bounds cb_id cb_sources add_source].
  rewrite foldM_app.
  assert (E : forall acc, foldM (fun agg s0 => v <- source_values (mkCell b i dep (srcs ++ [s]) p) s0 ;;
       merge_values agg (join_names (l_names (m_loader s0))) v) acc srcs =
     foldM (fun agg s0 => v <- source_values (mkCell b i dep srcs p) s0 ;;
       merge_values agg (join_names (l_names (m_loader s0))) v) acc srcs).
  { assert (S : forall s0, source_values (mkCell b i dep (srcs ++ [s]) p) s0 = source_values (mkCell b i dep srcs p) s0).
    { intros s0. unfold source_values, check_vector_data. reflexivity. }
    generalize srcs at 2 4 as l. induction l as [|x l IH]; intros acc; cbn; [reflexivity|].
    rewrite S. destruct (source_values _ x) as [v|e]; cbn; [|reflexivity].
    destruct (merge_values acc _ v) as [a'|e]; cbn; [apply IH | reflexivity]. }
  rewrite E. match goal with |- context [bind (foldM ?g [] srcs) _] => destruct (foldM g [] srcs) as [a|e] end; cbn; [|reflexivity].
  unfold add_source; cbn.
  destruct (source_values _ s) as [v|e]; cbn; [|reflexivity].
  destruct (merge_values _ _ v); reflexivity.
Qed.

Lemma add_live sqrt n f m i c : live_cell m i c ->
  live_cell (add_dataloader sqrt n f m) i (add_source (new_metadata sqrt n f) c).
Proof. unfold live_cell. cbn. intros E. rewrite nth_error_map, E. reflexivity. Qed.
Lemma add_live_inv sqrt n f m i c' : live_cell (add_dataloader sqrt n f m) i c' ->
  exists c, live_cell m i c /\ c' = add_source (new_metadata sqrt n f) c.
Proof.
  unfold live_cell. cbn. rewrite nth_error_map. destruct (nth_error (cells m) i) as [[c|]|] eqn:E; cbn; try discriminate.
  intros [= <-]. eauto.
Qed.

Lemma two_names (l : list string) : (2 <= List.length l)%nat -> exists a b l', l = a :: b :: l'.
Proof. destruct l as [|a [|b l']]; cbn; intros H; try lia. eauto. Qed.

Theorem scalar_raises sqrt n f m i c ac name : n_names n = [name] ->
  live_cell m i c -> aggregate c = Ok ac ->
  aggregate (add_source (new_metadata sqrt n f) c) = Err TypeError.
Proof.
  intros N L E. rewrite aggregate_added, E. cbn [bind]. unfold source_values.
  cbn [new_metadata m_loader l_value l_names m_subset]. unfold new_value. rewrite N.
  destruct (n_kind n); reflexivity.
Qed.

Theorem vector_xr_raises sqrt n f m i c ac : (2 <= List.length (n_names n))%nat -> n_kind n = Xarray ->
  live_cell m i c -> aggregate c = Ok ac ->
  aggregate (add_source (new_metadata sqrt n f) c) = Err AttributeError.
Proof.
  intros N K L E. rewrite aggregate_added, E. cbn [bind]. unfold source_values.
  cbn [new_metadata m_loader l_value l_names m_subset]. unfold new_value.
  destruct (two_names _ N) as (x & y & l & ->). rewrite K. reflexivity.
Qed.

Lemma vector_df_value sqrt n f b : (2 <= List.length (n_names n))%nat -> n_kind n = Pandas ->
  In (n_agg n) ["COUNT"; "MEAN"; "STD"]%string ->
  l_value (m_loader (new_metadata sqrt n f)) b (m_subset (new_metadata sqrt n f)) =
  vector_value_df sqrt (n_agg n) (n_names n) (n_data n).
Proof.
  intros N K A. cbn [new_metadata m_loader l_value m_subset]. unfold new_value.
  destruct (two_names _ N) as (x & y & l & E). rewrite E, K. cbn [default_subset vector_get_value].
  destruct A as [<- | [<- | [<- | []]]]; cbn [String.eqb Ascii.eqb Bool.eqb orb]; rewrite andb_false_r; reflexivity.
Qed.

Lemma vector_df_min_max sqrt n f m i c ac : (2 <= List.length (n_names n))%nat -> n_kind n = Pandas ->
  n_agg n = "MIN"%string \/ n_agg n = "MAX"%string -> n_data n <> [] ->
  live_cell m i c -> aggregate c = Ok ac ->
  aggregate (add_source (new_metadata sqrt n f) c) = Err KeyError.
Proof.
  intros N K A D L E. rewrite aggregate_added, E. cbn [bind]. unfold source_values.
  cbn [new_metadata m_loader l_value l_names m_subset]. unfold new_value.
  destruct (two_names _ N) as (x & y & l & ->). rewrite K. cbn [default_subset vector_get_value].
  destruct (n_data n) as [|p d]; [congruence|]. destruct A as [-> | ->]; reflexivity.
Qed.

Lemma selected_all {A} (P : A -> Prop) l l' : (forall x, In x l -> P x) -> selected P l l' -> l' = l.
Proof. intros H S. induction S; [reflexivity | f_equal; apply IHS; intros y Hy; apply H; right; auto | exfalso; apply H0, H; left; auto]. Qed.

Lemma selected_unique {A} (P : A -> Prop) l l1 l2 : selected P l l1 -> selected P l l2 -> l1 = l2.
Proof.
  intros S. revert l2. induction S; intros l2 S2; inversion S2; subst; try congruence; try contradiction; auto.
  - f_equal. auto.
Qed.

Theorem configured_value sqrt n name b inside : n_names n = [name] ->
  (long_min b < long_max b)%Q -> times_ok (time_range b) -> selected (belongs b) (n_data n) inside ->
  exists s, configured_subset n b = Ok s /\
    new_value sqrt n b s = (v <- match n_kind n with
                                 | Pandas => value_df sqrt (n_agg n) true (column 0 inside)
                                 | Xarray => value_xr sqrt (n_agg n) true (column 0 inside)
                                 end ;; Ok [(name, v)]).
Proof.
  intros N L T S.
  assert (Hin : forall p, In p inside -> belongs b p).
  { clear -S. induction S; cbn; intuition (subst; auto). }
  assert (E1 : df_trim b (n_data n) = inside).
  { eapply selected_unique; [apply df_trim_selects; auto | exact S]. }
  assert (E2 : df_trim b inside = inside).
  { eapply selected_all; [exact Hin | apply df_trim_selects; auto]. }
  unfold configured_subset, new_value. rewrite N.
  destruct (n_kind n); cbn [own trim_subset bind]; eexists; (split; [reflexivity|]);
    unfold scalar_get_value; cbn [trim_subset bind]; rewrite ?xr_trim_rows_df by auto; rewrite E1, E2; reflexivity.
Qed.
