(** Vector sources in the cells of reachable meshes; names used once. *)
From Verif Require Import Base Geo Graph Cell Loaders Builder Spec MeshSpec DataSpec QLib CaseProofs SplitGeo Dict Rep SplitCore Invariant Grid Build Consequences Reach TrimProofs AggProofs FillProofs Adaptive ChainProofs.
Open Scope Z_scope.

Lemma vector_total sqrt agg n d : In agg vector_aggs ->
  exists vs, vector_values_df sqrt agg n d = Ok vs /\ List.length vs = n.
Proof.
  intros H. cbn in H. unfold vector_values_df.
  destruct (Nat.eqb (List.length d) 0); [eexists; split; [reflexivity|rewrite map_length, seq_length; auto]|].
  decompose [or] H; subst; try contradiction; cbn [String.eqb Ascii.eqb Bool.eqb]; eexists; (split; [reflexivity|]);
  try (rewrite map_length, seq_length; auto);
  match goal with |- context [arg_extreme ?f ?a ?b] => destruct (arg_extreme f a b) as [[? ?]|] end; rewrite map_length, seq_length; auto.
Qed.
Lemma combine_fst {A B} (l : list A) (l' : list B) : List.length l = List.length l' -> map fst (combine l l') = l.
Proof. revert l'. induction l as [|a l IH]; intros [|b l'] H; cbn in *; try discriminate; auto. f_equal. apply IH. lia. Qed.

Theorem vector_cell b cw ch srcs m i c k s0 s : admissible b cw ch -> reachable b cw ch srcs m ->
  (forall s, In s srcs -> trims_exactly (m_loader s)) -> NoDup (map uid_of srcs) -> live_cell m i c ->
  nth_error srcs k = Some s0 -> nth_error (cb_sources c) k = Some s -> vector_source s0 ->
  exists v, source_values c s = Ok v /\ map fst v = l_names (m_loader s0) /\
    forall name, In name (l_names (m_loader s0)) ->
      sget v name = Some (Num (first_known (map (component s0 name) (c :: ancestors c)))).
Proof.
  intros A Rm Tr Nd L Hk Hs (Hl & Hf). pose proof (reachable_chains b cw ch srcs m A Rm Tr i c L) as Ch.
  assert (At : forall a, In a (c :: ancestors c) -> exists sa d, nth_error (cb_sources a) k = Some sa /\ meta_head sa = meta_head s0 /\
     find_source (l_uid (m_loader s0)) (cb_sources a) = Ok sa /\
     l_value (m_loader s0) (cb_bounds a) (m_subset sa) = Ok d /\ map fst d = l_names (m_loader s0) /\
     forall name, In name (l_names (m_loader s0)) -> sget d name = Some (component s0 name a)).
  { intros a Ha. rewrite Forall_forall in Ch. pose proof (Ch a Ha) as (T1 & T2 & T3 & T4).
    destruct (Forall2_nth _ _ _ _ _ T4 Hk) as (sa & Esa & Hh & Hsel).
    assert (Ed : m_subset sa = l_trim (m_loader s0) (cb_bounds a) (m_subset s0)).
    { eapply selected_unique; [exact Hsel|]. apply Tr; auto; [eapply nth_error_In; eauto|]. rewrite T1. apply A. }
    destruct Hl as (uid & names & agg & md & whole & sq & Ha1 & Hn1 & Hn2 & Hl).
    destruct (vector_total sq agg (List.length names) (m_subset sa) Ha1) as (vs & Ev & Lv).
    assert (Ex : l_value (m_loader s0) (cb_bounds a) (m_subset sa) = Ok (combine names vs)).
    { rewrite Hl. cbn [l_value vector_df]. unfold vector_value_df. rewrite Ev. reflexivity. }
    exists sa, (combine names vs). split; auto. split; auto. split; [|split; auto; split].
    - replace (l_uid (m_loader s0)) with (uid_of sa); [|unfold uid_of; injection Hh as -> _ _; auto].
      eapply find_source_nth; eauto. rewrite (heads_uids srcs (time_range b) a) by (apply Ch; auto). auto.
    - rewrite Hl. cbn [l_names vector_df]. apply combine_fst; auto.
    - intros name Hin. unfold component. rewrite <- Ed, Ex.
      destruct (sget (combine names vs) name) as [v|] eqn:E; auto. exfalso.
      rewrite Hl in Hin. cbn [l_names vector_df] in Hin.
      assert (In name (map fst (combine names vs))) as H by (rewrite combine_fst; auto).
      apply sget_keys in H as (v & H). congruence. }
  destruct (At c (or_introl eq_refl)) as (s' & d & E1 & E2 & E3 & E4 & E5 & E6). rewrite Hs in E1. injection E1 as <-.
  injection E2 as L1 _ L3. rewrite <- L1 in *.
  destruct Hl as (uid & names & agg & md & whole & sq & Ha1 & Hn1 & Hn2 & Hl).
  apply (vector_fill_parent c s d (component s0)); auto; try congruence.
  - rewrite Hl. cbn [l_names vector_df]. intros name ->. cbn in Hn2. lia.
  - rewrite Hl. auto.
  - intros name a Hin Ha. destruct (At a (or_intror Ha)) as (sa & da & _ & _ & F1 & F2 & _ & F3). exists sa, da. split; auto. 
Qed.

(** A name used by one source only. *)
Lemma merged_once srcs c s : In s srcs -> NoDup (map source_name srcs) ->
  merged_value (source_name s) srcs c = Some (Num (filled_value s c)).
Proof.
  intros H N. unfold merged_value.
  assert (E : filter (fun s' => String.eqb (source_name s') (source_name s)) srcs = [s]).
  { induction srcs as [|a srcs IH]; [destruct H|]. inversion N as [|? ? N1 N2]; subst. cbn [filter].
    destruct H as [->|H].
    - rewrite String.eqb_refl. f_equal.
      assert (X : forall l, ~ In (source_name s) (map source_name l) -> filter (fun s' => String.eqb (source_name s') (source_name s)) l = []).
      { clear. induction l as [|a l IH]; auto. cbn. intros H. destruct (String.eqb_spec (source_name a) (source_name s)) as [E|E]; [exfalso; auto|]. apply IH. auto. }
      apply X; auto.
    - destruct (String.eqb_spec (source_name a) (source_name s)) as [E|E]; [|auto].
      exfalso. apply N1. rewrite E. apply in_map. auto. }
  rewrite E. cbn. destruct (filled_value s c); auto.
Qed.
