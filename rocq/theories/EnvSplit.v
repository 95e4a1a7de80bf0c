(** EnvironmentMesh.split_and_replace: the graph part computes [final] (as the
    builder's does, with string keys and the other order of steps). *)
From Verif Require Import Base Geo Graph Cell Builder Env Spec QLib CaseProofs SplitGeo Dict Rep SplitCore Stage BuilderSplit.
Open Scope Z_scope.

Definition env_pair (d : compass) : quad * quad :=
  match d with
  | dN => (qNE, qNW) | dE => (qNE, qSE) | dS => (qSE, qSW) | _ => (qNW, qSW)
  end.
Lemma env_pair_ok : side_pair_ok env_pair.
Proof. repeat split; auto. Qed.

Lemma emap_append_rep m h d x : rep_map KS m h -> In d dirs ->
  exists m', emap_append m d x = Ok m' /\ rep_map KS m' (fun d' => if d' =? d then h d' ++ [x] else h d').
Proof.
  intros (N & Hk & Hd) D. unfold emap_append, dget. rewrite (Hd d D). cbn.
  eexists; split; [reflexivity|].
  assert (I : In (KS d) (dkeys m)) by (apply Hk; eauto).
  split; [|split].
  - rewrite dset_keys_in; auto.
  - intros k. rewrite dset_keys_in; auto.
  - intros d' D'. rewrite dget_dset, (K_eqb KS KS_inj).
    destruct (Z.eqb_spec d' d); subst; auto.
Qed.

Lemma rep_smap8 (ne e se s sw w nw n : list Z) (m : nmap) :
  m = smap8 ne e se s sw w nw n ->
  rep_map KS m (fun d => match dget_opt m (KS d) with Some l => l | None => [] end).
Proof.
  intros ->. split; [|split].
  - cbn. repeat constructor; cbn; intuition discriminate.
  - intros k. unfold dirs. cbn. split.
    + intros H. repeat (destruct H as [<-|H]; [eexists; split; [reflexivity|cbn; tauto]|]). destruct H.
    + intros (d & -> & H). repeat (destruct H as [<-|H]; [cbn; tauto|]). destruct H.
  - intros d H. unfold dirs in H. cbn in H.
    repeat (destruct H as [<-|H]; [reflexivity|]). destruct H.
Qed.

Section Fill.
Variable cs : list ecell.
Variable bx : Z -> boundary.
Definition at_id (i : Z) : Prop := exists c, get_cellbox cs i = Ok c /\ e_bounds c = bx i.
(** [case] is the contact intended, as in BuilderSplit.v. *)
Variable case : Z -> Z -> Z.
Notation seen := (icase false bx).

Definition filled (h : Z -> list Z) (self d1 d2 : Z) (l : list Z) (d : Z) : list Z :=
  if (d =? d1) || (d =? d2) then h d ++ filter (fun j => case self j =? d) l else h d.

Lemma fill_loop self d1 d2 m l h :
  rep_map KS m h -> In d1 dirs -> In d2 dirs -> d1 <> d2 ->
  at_id self -> (forall i, In i l -> at_id i) ->
  (forall i, In i l -> seen self i = case self i) ->
  exists m', foldM (efill_one cs self d1 d2) m l = Ok m' /\ rep_map KS m' (filled h self d1 d2 l).
Proof.
  intros R D1 D2 N Bs Bl Ag.
  apply (foldM_inv (fun pre m => rep_map KS m (filled h self d1 d2 pre))).
  - eapply rep_map_ext; [|exact R]. intros d _. unfold filled. cbn.
    destruct (_ || _); rewrite ?app_nil_r; auto.
  - intros pre x post s El Rs. subst l. unfold efill_one.
    destruct Bs as (ca & -> & Ea). destruct (Bl x) as (cb & -> & Eb); [apply in_or_app; cbn; auto|].
    cbn [bind]. rewrite Ea, Eb. change (get_neighbour_case_bounds (bx self) (bx x)) with (seen self x). rewrite Ag by (apply in_or_app; cbn; auto).
    assert (X : exists m1, (if case self x =? d1 then emap_append s d1 x else Ok s) = Ok m1 /\
       rep_map KS m1 (fun d => if (d =? d1) && (case self x =? d1) then filled h self d1 d2 pre d ++ [x] else filled h self d1 d2 pre d)).
    { destruct (case self x =? d1) eqn:E.
      - destruct (emap_append_rep s _ d1 x Rs D1) as (m1 & E1 & R1). exists m1. split; auto.
        eapply rep_map_ext; [|exact R1]. intros d _. cbn beta. rewrite andb_true_r. auto.
      - exists s. split; auto. eapply rep_map_ext; [|exact Rs]. intros d _. cbn beta. rewrite andb_false_r. auto. }
    destruct X as (m1 & -> & R1). cbn [bind].
    assert (X : exists m2, (if case self x =? d2 then emap_append m1 d2 x else Ok m1) = Ok m2 /\
       rep_map KS m2 (filled h self d1 d2 (pre ++ [x]))).
    { destruct (Z.eqb_spec (case self x) d2) as [E|E].
      - destruct (emap_append_rep m1 _ d2 x R1 D2) as (m2 & E2 & R2). exists m2. split; auto.
        eapply rep_map_ext; [|exact R2]. intros d _. cbn beta. unfold filled. rewrite filter_app. cbn [filter].
        rewrite E.
        destruct (Z.eqb_spec d d1), (Z.eqb_spec d d2), (Z.eqb_spec d2 d1), (Z.eqb_spec d2 d); subst; cbn [andb orb];
          rewrite ?app_nil_r, <- ?app_assoc; auto; try congruence.
      - exists m1. split; auto. eapply rep_map_ext; [|exact R1]. intros d _. cbn beta. unfold filled.
        rewrite filter_app. cbn [filter].
        destruct (Z.eqb_spec d d1), (Z.eqb_spec d d2), (Z.eqb_spec (case self x) d1), (Z.eqb_spec (case self x) d); subst; cbn [andb orb];
          rewrite ?app_nil_r, <- ?app_assoc; auto; try congruence. }
    exact X.
Qed.

(** ** The whole graph update *)
Variable L : Z -> Prop.
Variable f : Z -> Z -> list Z.
Variable c : Z.
Variable kid : quad -> Z.
Hypothesis Lc : L c.
Hypothesis kid_new : forall q, ~ L (kid q).
Hypothesis kid_inj : forall q q', kid q = kid q' -> q = q'.
Hypothesis anti : forall i j, all_live kid L i -> all_live kid L j -> case j i = - case i j.
Hypothesis irr : forall i, all_live kid L i -> case i i = 0.
Hypothesis uniq : forall i j k d, L i -> L j -> L k -> is_corner d = true ->
  case i j = code d -> case i k = code d -> j = k.
Hypothesis Hf : exact_for L case f.
Hypothesis case_rangeH : forall i j, case i j = 0 \/ exists d, case i j = code d.
Hypothesis agree : forall q s j, is_corner s = false -> In j (f c (code s)) ->
  seen (kid q) j = case (kid q) j /\ seen j (kid q) = case j (kid q).
Hypothesis bounds_ok : forall i, all_live kid L i -> at_id i.


Notation kl := (kid_list case c kid f).
Notation stg := (stage case c kid env_pair f).

Lemma side_bounds s i : In i (f c (code s)) -> at_id i.
Proof. intros H. apply bounds_ok. left. eapply Hf; eauto. apply In_dirs_code; eauto. Qed.

(** Lists for a literal map. *)
Definition lit (ne e se s sw w nw n : list Z) (d : Z) : list Z :=
  match dget_opt (smap8 ne e se s sw w nw n) (KS d) with Some l => l | None => [] end.
Lemma lit_rep ne e se s sw w nw n : rep_map KS (smap8 ne e se s sw w nw n) (lit ne e se s sw w nw n).
Proof. apply (rep_smap8 ne e se s sw w nw n). reflexivity. Qed.

Definition kmap (q : quad) (d : Z) : list Z :=
  match dir_of d with Some dd => kl q dd | None => [] end.

Ltac by_dirs := let d := fresh in let D := fresh in intros d D;
  apply In_dirs_code in D as (d' & ->); unfold kmap; rewrite dir_of_code; destruct d'; cbn; auto.

Lemma fill_sw_ok : exists m,
  efill_sw cs (kid qSW) (f c south) (f c west)
    (smap8 [kid qNE] [kid qSE] [] [] (f c south_west) [] [] [kid qNW]) = Ok m /\ rep_map KS m (kmap qSW).
Proof.
  unfold efill_sw.
  destruct (fill_loop (kid qSW) south_east south _ (f c south) _ (lit_rep [kid qNE] [kid qSE] [] [] (f c south_west) [] [] [kid qNW]))
    as (m1 & -> & R1); try (cbn; tauto); try discriminate.
  { apply bounds_ok; right; eauto. } { apply (side_bounds dS). } { intros j Hj; apply (agree _ dS); auto. }
  cbn [bind].
  destruct (fill_loop (kid qSW) west north_west _ (f c west) _ R1) as (m2 & -> & R2); try (cbn; tauto); try discriminate.
  { apply bounds_ok; right; eauto. } { apply (side_bounds dW). } { intros j Hj; apply (agree _ dW); auto. }
  exists m2. split; auto. eapply rep_map_ext; [|exact R2]. by_dirs.
Qed.
Lemma fill_nw_ok : exists m,
  efill_nw cs (kid qNW) (f c north) (f c west)
    (smap8 [] [kid qNE] [kid qSE] [kid qSW] [] [] (f c north_west) []) = Ok m /\ rep_map KS m (kmap qNW).
Proof.
  unfold efill_nw.
  destruct (fill_loop (kid qNW) north north_east _ (f c north) _ (lit_rep [] [kid qNE] [kid qSE] [kid qSW] [] [] (f c north_west) []))
    as (m1 & -> & R1); try (cbn; tauto); try discriminate.
  { apply bounds_ok; right; eauto. } { apply (side_bounds dN). } { intros j Hj; apply (agree _ dN); auto. }
  cbn [bind].
  destruct (fill_loop (kid qNW) west south_west _ (f c west) _ R1) as (m2 & -> & R2); try (cbn; tauto); try discriminate.
  { apply bounds_ok; right; eauto. } { apply (side_bounds dW). } { intros j Hj; apply (agree _ dW); auto. }
  exists m2. split; auto. eapply rep_map_ext; [|exact R2]. by_dirs.
Qed.
Lemma fill_ne_ok : exists m,
  efill_ne cs (kid qNE) (f c north) (f c east)
    (smap8 (f c north_east) [] [] [kid qSE] [kid qSW] [kid qNW] [] []) = Ok m /\ rep_map KS m (kmap qNE).
Proof.
  unfold efill_ne.
  destruct (fill_loop (kid qNE) north north_west _ (f c north) _ (lit_rep (f c north_east) [] [] [kid qSE] [kid qSW] [kid qNW] [] []))
    as (m1 & -> & R1); try (cbn; tauto); try discriminate.
  { apply bounds_ok; right; eauto. } { apply (side_bounds dN). } { intros j Hj; apply (agree _ dN); auto. }
  cbn [bind].
  destruct (fill_loop (kid qNE) east south_east _ (f c east) _ R1) as (m2 & -> & R2); try (cbn; tauto); try discriminate.
  { apply bounds_ok; right; eauto. } { apply (side_bounds dE). } { intros j Hj; apply (agree _ dE); auto. }
  exists m2. split; auto. eapply rep_map_ext; [|exact R2]. by_dirs.
Qed.
Lemma fill_se_ok : exists m,
  efill_se cs (kid qSE) (f c south) (f c east)
    (smap8 [] [] (f c south_east) [] [] [kid qSW] [kid qNW] [kid qNE]) = Ok m /\ rep_map KS m (kmap qSE).
Proof.
  unfold efill_se.
  destruct (fill_loop (kid qSE) south south_west _ (f c south) _ (lit_rep [] [] (f c south_east) [] [] [kid qSW] [kid qNW] [kid qNE]))
    as (m1 & -> & R1); try (cbn; tauto); try discriminate.
  { apply bounds_ok; right; eauto. } { apply (side_bounds dS). } { intros j Hj; apply (agree _ dS); auto. }
  cbn [bind].
  destruct (fill_loop (kid qSE) east north_east _ (f c east) _ R1) as (m2 & -> & R2); try (cbn; tauto); try discriminate.
  { apply bounds_ok; right; eauto. } { apply (side_bounds dE). } { intros j Hj; apply (agree _ dE); auto. }
  exists m2. split; auto. eapply rep_map_ext; [|exact R2]. by_dirs.
Qed.


Lemma kid_ne q q' : q <> q' -> kid q <> kid q'.
Proof. intros N E. apply N, kid_inj, E. Qed.
Lemma c_ne q : kid q <> c.
Proof. intros E. apply (kid_new q). rewrite E. auto. Qed.

Lemma eupdate_side_ok g S s :
  rep KS g (all_live kid L) (stg S) -> ~ In s S -> is_corner s = false ->
  exists g', eupdate_side cs (KS c) (code s) (kid (fst (env_pair s))) (kid (snd (env_pair s))) (f c (code s)) g = Ok g' /\
             rep KS g' (all_live kid L) (stg (s :: S)).
Proof.
  intros R Ns Cs. unfold eupdate_side, remove_node_from_neighbours.
  assert (D : In (code s) dirs) by (apply In_dirs_code; eauto).
  rewrite (rep_KS_miss_dir _ _ _ _ _ R) by (left; auto).
  rewrite (rep_get KS _ _ _ _ _ R) by (auto; left; auto). cbn [bind].
  rewrite (stage_c case c kid env_pair f L Lc kid_new irr) by auto.
  destruct (stage_remove KS remove_from_one_KS case c kid env_pair f L Lc kid_new anti Hf g S s R Ns Cs)
    as (g1 & -> & R1).
  cbn [bind].
  destruct (stage_add KS KS_inj case c kid env_pair f L Lc kid_new kid_inj case_rangeH Hf g1 S s Ns Cs R1)
    as (g2 & E2 & R2).
  exists g2. split; auto. rewrite <- E2. apply foldM_ext.
  intros s0 i Hi. unfold add_two, add_case, eadd_if_touching.
  destruct (side_bounds s i Hi) as (ci & -> & Ei).
  destruct (bounds_ok (kid (fst (env_pair s)))) as (ca & -> & Ea); [right; eauto|].
  destruct (bounds_ok (kid (snd (env_pair s)))) as (cb & -> & Eb); [right; eauto|].
  cbn [bind]. rewrite Ei, Ea, Eb.
  destruct (agree (fst (env_pair s)) s i Cs Hi) as [_ A1]. destruct (agree (snd (env_pair s)) s i Cs Hi) as [_ A2].
  unfold icase in A1, A2. change get_neighbour_case_bounds with (get_neighbour_case false). rewrite A1, A2. reflexivity.
Qed.

Lemma eupdate_corner_eq g q o : code (opposite (corner_of q)) = o ->
  eupdate_corner g (KS c) (code (corner_of q)) o (kid q) = corner_update KS c g (corner_of q) (kid q).
Proof. intros <-. unfold eupdate_corner, corner_update. rewrite code_opposite. auto. Qed.

Theorem esplit_graph_case_ok g : rep KS g L f ->
  exists g', esplit_graph cs g (KS c) (kid qNW) (kid qNE) (kid qSW) (kid qSE) = Ok g' /\
             rep KS g' (new_live c kid L) (final case c kid env_pair f).
Proof.
  intros R. unfold esplit_graph.
  assert (D : forall s, In (code s) dirs) by (intro; apply In_dirs_code; eauto).
  rewrite !(rep_get KS _ _ _ _ _ R) by (auto; apply (D dS) || apply (D dN) || apply (D dE) || apply (D dW) || apply (D dSW)).
  cbn [bind].
  destruct fill_sw_ok as (msw & -> & Rsw). cbn [bind].
  pose proof (rep_add_node KS KS_inj _ _ _ (kid qSW) _ _ R (kid_new _) Rsw) as R1.
  rewrite (rep_get KS _ _ _ _ _ R1) by (auto; apply (D dNW)). cbn [bind].
  destruct (Z.eqb_spec c (kid qSW)) as [E|_]; [symmetry in E; destruct (c_ne _ E)|].
  destruct fill_nw_ok as (mnw & -> & Rnw). cbn [bind].
  pose proof (rep_add_node KS KS_inj _ _ _ (kid qNW) _ _ R1
    (fun H => match H with or_introl E => kid_ne qNW qSW ltac:(discriminate) E | or_intror H => kid_new _ H end) Rnw) as R2.
  rewrite (rep_get KS _ _ _ _ _ R2) by (auto; apply (D dNE)). cbn [bind].
  destruct (Z.eqb_spec c (kid qNW)) as [E|_]; [symmetry in E; destruct (c_ne _ E)|].
  destruct (Z.eqb_spec c (kid qSW)) as [E|_]; [symmetry in E; destruct (c_ne _ E)|].
  destruct fill_ne_ok as (mne & -> & Rne). cbn [bind].
  assert (X : ~ (kid qNE = kid qNW \/ kid qNE = kid qSW \/ L (kid qNE))).
  { intros [E|[E|E]]; [revert E; apply kid_ne; discriminate .. | exact (kid_new _ E)]. }
  pose proof (rep_add_node KS KS_inj _ _ _ (kid qNE) _ _ R2 X Rne) as R3. clear X.
  rewrite (rep_get KS _ _ _ _ _ R3) by (auto; apply (D dSE)). cbn [bind].
  destruct (Z.eqb_spec c (kid qNE)) as [E|_]; [symmetry in E; destruct (c_ne _ E)|].
  destruct (Z.eqb_spec c (kid qNW)) as [E|_]; [symmetry in E; destruct (c_ne _ E)|].
  destruct (Z.eqb_spec c (kid qSW)) as [E|_]; [symmetry in E; destruct (c_ne _ E)|].
  destruct fill_se_ok as (mse & -> & Rse). cbn [bind].
  assert (X : ~ (kid qSE = kid qNE \/ kid qSE = kid qNW \/ kid qSE = kid qSW \/ L (kid qSE))).
  { intros [E|[E|[E|E]]]; [revert E; apply kid_ne; discriminate .. | exact (kid_new _ E)]. }
  pose proof (rep_add_node KS KS_inj _ _ _ (kid qSE) _ _ R3 X Rse) as R4. clear X.
  assert (R0 : rep KS (add_node (add_node (add_node (add_node g (KS (kid qSW)) msw) (KS (kid qNW)) mnw) (KS (kid qNE)) mne) (KS (kid qSE)) mse)
     (all_live kid L) (stg [])).
  { eapply rep_ext; [| |exact R4].
    - intros i. unfold all_live. split.
      + intros [->|[->|[->|[->|H]]]]; eauto.
      + intros [H|[[| | |] ->]]; auto.
    - intros i d _ Hd. cbn beta. unfold stage, kmap. apply In_dirs_code in Hd as (dd & ->). rewrite dir_of_code.
      cbn [existsb].
      repeat match goal with |- context [i =? ?b] => destruct (Z.eqb_spec i b) end; auto;
      exfalso; match goal with E : i = kid ?a, E' : i = kid ?b |- _ =>
        rewrite E in E'; apply kid_inj in E'; discriminate end. }
  clear R R1 R2 R3 R4.
  assert (SC : forall g S q, rep KS g (all_live kid L) (stg S) -> ~ In (corner_of q) S ->
    exists g', corner_update KS c g (corner_of q) (kid q) = Ok g' /\ rep KS g' (all_live kid L) (stg (corner_of q :: S))).
  { intros. apply (stage_corner KS KS_inj case c kid env_pair f L Lc kid_new kid_inj irr uniq Hf); auto. }
  match goal with |- context [eupdate_corner ?g0 (KS c) north_east south_west (kid qNE)] =>
    change (eupdate_corner g0 (KS c) north_east south_west (kid qNE)) with (eupdate_corner g0 (KS c) (code (corner_of qNE)) south_west (kid qNE)) end.
  destruct (SC _ _ qNE R0) as (g5 & E5 & R5). { cbn; intuition discriminate. }
  rewrite (eupdate_corner_eq _ qNE south_west eq_refl), E5. cbn [bind]. clear E5 R0.
  destruct (SC _ _ qSE R5) as (g6 & E6 & R6). { cbn; intuition discriminate. }
  change (eupdate_corner g5 (KS c) south_east north_west (kid qSE)) with (eupdate_corner g5 (KS c) (code (corner_of qSE)) north_west (kid qSE)).
  rewrite (eupdate_corner_eq g5 qSE north_west eq_refl), E6. cbn [bind]. clear E6 R5.
  destruct (SC _ _ qNW R6) as (g7 & E7 & R7). { cbn; intuition discriminate. }
  change (eupdate_corner g6 (KS c) north_west south_east (kid qNW)) with (eupdate_corner g6 (KS c) (code (corner_of qNW)) south_east (kid qNW)).
  rewrite (eupdate_corner_eq g6 qNW south_east eq_refl), E7. cbn [bind]. clear E7 R6.
  destruct (SC _ _ qSW R7) as (g8 & E8 & R8). { cbn; intuition discriminate. }
  change (eupdate_corner g7 (KS c) south_west north_east (kid qSW)) with (eupdate_corner g7 (KS c) (code (corner_of qSW)) north_east (kid qSW)).
  rewrite (eupdate_corner_eq g7 qSW north_east eq_refl), E8. cbn [bind]. clear E8 R7.
  destruct (eupdate_side_ok _ _ dN R8) as (g1 & E1 & R1); auto. { cbn; intuition discriminate. }
  cbn [env_pair fst snd] in E1. change north with (code dN). rewrite E1. cbn [bind]. clear E1 R8.
  destruct (eupdate_side_ok _ _ dS R1) as (g2 & E2 & R2); auto. { cbn; intuition discriminate. }
  cbn [env_pair fst snd] in E2. change south with (code dS). rewrite E2. cbn [bind]. clear E2 R1.
  destruct (eupdate_side_ok _ _ dE R2) as (g3 & E3 & R3); auto. { cbn; intuition discriminate. }
  cbn [env_pair fst snd] in E3. change east with (code dE). rewrite E3. cbn [bind]. clear E3 R2.
  destruct (eupdate_side_ok _ _ dW R3) as (g4 & E4 & R4); auto. { cbn; intuition discriminate. }
  cbn [env_pair fst snd] in E4. change west with (code dW). rewrite E4. cbn [bind]. clear E4 R3.
  apply (stage_drop KS KS_inj case c kid env_pair f L Lc kid_new kid_inj case_rangeH _ _) in R4; auto.
  intros s. destruct s; cbn; tauto.
Qed.
End Fill.

Theorem esplit_graph_ok cs bx (L : Z -> Prop) f c kid :
  L c -> (forall q, ~ L (kid q)) -> (forall q q', kid q = kid q' -> q = q') ->
  (forall i j, all_live kid L i -> all_live kid L j -> icase false bx j i = - icase false bx i j) ->
  (forall i, all_live kid L i -> icase false bx i i = 0) ->
  (forall i j k d, L i -> L j -> L k -> is_corner d = true ->
    icase false bx i j = code d -> icase false bx i k = code d -> j = k) ->
  exact_for L (icase false bx) f ->
  (forall i, all_live kid L i -> at_id cs bx i) ->
  forall g, rep KS g L f ->
  exists g', esplit_graph cs g (KS c) (kid qNW) (kid qNE) (kid qSW) (kid qSE) = Ok g' /\
             rep KS g' (new_live c kid L) (final (icase false bx) c kid env_pair f).
Proof.
  intros Lc Kn Ki An Ir Un Hf Bo g R.
  apply (esplit_graph_case_ok cs bx (icase false bx) L f c kid); auto. apply icase_range.
Qed.
