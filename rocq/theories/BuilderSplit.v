(** MeshBuilder.split_and_replace: the graph part computes [final]. *)
From Verif Require Import Base Geo Graph Cell Builder Spec QLib CaseProofs SplitGeo Dict Rep SplitCore Stage.
Open Scope Z_scope.

Definition builder_pair (d : compass) : quad * quad :=
  match d with
  | dN => (qNW, qNE) | dE => (qNE, qSE) | dS => (qSW, qSE) | _ => (qNW, qSW)
  end.
Lemma builder_pair_ok : side_pair_ok builder_pair.
Proof. repeat split; auto. Qed.

Lemma map_append_rep m h d x : rep_map KI m h -> In d dirs ->
  exists m', map_append m d x = Ok m' /\ rep_map KI m' (fun d' => if d' =? d then h d' ++ [x] else h d').
Proof.
  intros (N & Hk & Hd) D. unfold map_append, dget. rewrite (Hd d D). cbn.
  eexists; split; [reflexivity|].
  assert (I : In (KI d) (dkeys m)) by (apply Hk; eauto).
  split; [|split].
  - rewrite dset_keys_in; auto.
  - intros k. rewrite dset_keys_in; auto.
  - intros d' D'. rewrite dget_dset, (K_eqb KI KI_inj).
    destruct (Z.eqb_spec d' d); subst; auto.
Qed.

Lemma rep_map_ext (K : Z -> pykey) m (h h' : Z -> list Z) :
  (forall d, In d dirs -> h d = h' d) -> rep_map K m h -> rep_map K m h'.
Proof. intros H (N & Hk & Hd). split; [|split]; auto. intros d D. rewrite <- H; auto. Qed.

Definition icase (gl : bool) (bx : Z -> boundary) (i j : Z) : Z := get_neighbour_case gl (bx i) (bx j).
Lemma icase_range gl bx i j : icase gl bx i j = 0 \/ exists d, icase gl bx i j = code d.
Proof. apply case_range. Qed.

(** [case] is the contact intended; the code's [get_neighbour_case] has to agree
    with it only between the new cells and the neighbours along the four sides of
    the split cell. *)
Section Fill.
Variable gl : bool.
Variable cbs : bounds_list.
Variable bx : Z -> boundary.
Variable case : Z -> Z -> Z.

Definition filled (h : Z -> list Z) (self d1 d2 : Z) (l : list Z) (d : Z) : list Z :=
  if (d =? d1) || (d =? d2) then h d ++ filter (fun j => case self j =? d) l else h d.

Lemma fill_loop self d1 d2 m l h :
  rep_map KI m h -> In d1 dirs -> In d2 dirs -> d1 <> d2 ->
  bounds_at cbs self = Ok (bx self) -> (forall i, In i l -> bounds_at cbs i = Ok (bx i)) ->
  (forall i, In i l -> icase gl bx self i = case self i) ->
  exists m', foldM (fill_one gl cbs self d1 d2) m l = Ok m' /\ rep_map KI m' (filled h self d1 d2 l).
Proof.
  intros R D1 D2 N Bs Bl Ag.
  apply (foldM_inv (fun pre m => rep_map KI m (filled h self d1 d2 pre))).
  - eapply rep_map_ext; [|exact R]. intros d _. unfold filled. cbn.
    destruct (_ || _); rewrite ?app_nil_r; auto.
  - intros pre x post s El Rs. subst l. unfold fill_one. rewrite Bs, Bl by (apply in_or_app; cbn; auto).
    cbn [bind]. change (get_neighbour_case gl (bx self) (bx x)) with (icase gl bx self x).
    rewrite Ag by (apply in_or_app; cbn; auto).
    assert (X : exists m1, (if case self x =? d1 then map_append s d1 x else Ok s) = Ok m1 /\
       rep_map KI m1 (fun d => if (d =? d1) && (case self x =? d1) then filled h self d1 d2 pre d ++ [x] else filled h self d1 d2 pre d)).
    { destruct (case self x =? d1) eqn:E.
      - destruct (map_append_rep s _ d1 x Rs D1) as (m1 & E1 & R1). exists m1. split; auto.
        eapply rep_map_ext; [|exact R1]. intros d _. cbn beta. rewrite andb_true_r. auto.
      - exists s. split; auto. eapply rep_map_ext; [|exact Rs]. intros d _. cbn beta. rewrite andb_false_r. auto. }
    destruct X as (m1 & -> & R1). cbn [bind].
    assert (X : exists m2, (if case self x =? d2 then map_append m1 d2 x else Ok m1) = Ok m2 /\
       rep_map KI m2 (filled h self d1 d2 (pre ++ [x]))).
    { destruct (Z.eqb_spec (case self x) d2) as [E|E].
      - destruct (map_append_rep m1 _ d2 x R1 D2) as (m2 & E2 & R2). exists m2. split; auto.
        eapply rep_map_ext; [|exact R2]. intros d _. cbn beta. unfold filled. rewrite filter_app. cbn.
        rewrite E.
        destruct (Z.eqb_spec d d1), (Z.eqb_spec d d2), (Z.eqb_spec d2 d1), (Z.eqb_spec d2 d); subst; cbn;
          rewrite ?app_nil_r, <- ?app_assoc; auto; try congruence.
      - exists m1. split; auto. eapply rep_map_ext; [|exact R1]. intros d _. cbn beta. unfold filled.
        rewrite filter_app. cbn.
        destruct (Z.eqb_spec d d1), (Z.eqb_spec d d2), (Z.eqb_spec (case self x) d1), (Z.eqb_spec (case self x) d); subst; cbn;
          rewrite ?app_nil_r, <- ?app_assoc; auto; try congruence. }
    exact X.
Qed.

(** ** The whole graph update *)
Variable L : Z -> Prop.
Variable f : Z -> Z -> list Z.
Variable c : Z.
Variable kid : quad -> Z.
Hypothesis Lc : L c.
Hypothesis kid_new : forall q, ~ L (kid q).
Hypothesis kid_inj : forall q q', kid q = kid q' -> q = q'.
Hypothesis anti : forall i j, all_live kid L i -> all_live kid L j -> case j i = - case i j.
Hypothesis irr : forall i, all_live kid L i -> case i i = 0.
Hypothesis uniq : forall i j k d, L i -> L j -> L k -> is_corner d = true ->
  case i j = code d -> case i k = code d -> j = k.
Hypothesis Hf : exact_for L case f.
Hypothesis case_rangeH : forall i j, case i j = 0 \/ exists d, case i j = code d.
Hypothesis agree : forall q s j, is_corner s = false -> In j (f c (code s)) ->
  icase gl bx (kid q) j = case (kid q) j /\ icase gl bx j (kid q) = case j (kid q).
Hypothesis bounds_ok : forall i, all_live kid L i -> bounds_at cbs i = Ok (bx i).


Notation kl := (kid_list case c kid f).
Notation stg := (stage case c kid builder_pair f).

Lemma side_bounds s i : In i (f c (code s)) -> bounds_at cbs i = Ok (bx i).
Proof. intros H. apply bounds_ok. left. eapply Hf; eauto. apply In_dirs_code; eauto. Qed.

(** Lists for a literal map. *)
Definition lit (ne e se s sw w nw n : list Z) (d : Z) : list Z :=
  match dget_opt (nmap8 ne e se s sw w nw n) (KI d) with Some l => l | None => [] end.
Lemma lit_rep ne e se s sw w nw n : rep_map KI (nmap8 ne e se s sw w nw n) (lit ne e se s sw w nw n).
Proof. apply (rep_nmap8_KI ne e se s sw w nw n). reflexivity. Qed.

Definition kmap (q : quad) (d : Z) : list Z :=
  match dir_of d with Some dd => kl q dd | None => [] end.

Ltac by_dirs := let d := fresh in let D := fresh in intros d D;
  apply In_dirs_code in D as (d' & ->); unfold kmap; rewrite dir_of_code; destruct d'; cbn; auto.

Lemma fill_sw_ok : exists m,
  fill_sw_neighbour_map gl cbs (kid qSW) (f c south) (f c west)
    (nmap8 [kid qNE] [kid qSE] [] [] (f c south_west) [] [] [kid qNW]) = Ok m /\ rep_map KI m (kmap qSW).
Proof.
  unfold fill_sw_neighbour_map.
  destruct (fill_loop (kid qSW) south_east south _ (f c south) _ (lit_rep [kid qNE] [kid qSE] [] [] (f c south_west) [] [] [kid qNW]))
    as (m1 & -> & R1); try (cbn; tauto); try discriminate.
  { apply bounds_ok; right; eauto. } { apply (side_bounds dS). } { intros i Hi. apply (agree _ dS i eq_refl Hi). }
  cbn [bind].
  destruct (fill_loop (kid qSW) west north_west _ (f c west) _ R1) as (m2 & -> & R2); try (cbn; tauto); try discriminate.
  { apply bounds_ok; right; eauto. } { apply (side_bounds dW). } { intros i Hi. apply (agree _ dW i eq_refl Hi). }
  exists m2. split; auto. eapply rep_map_ext; [|exact R2]. by_dirs.
Qed.
Lemma fill_nw_ok : exists m,
  fill_nw_map gl cbs (kid qNW) (f c north) (f c west)
    (nmap8 [] [kid qNE] [kid qSE] [kid qSW] [] [] (f c north_west) []) = Ok m /\ rep_map KI m (kmap qNW).
Proof.
  unfold fill_nw_map.
  destruct (fill_loop (kid qNW) north north_east _ (f c north) _ (lit_rep [] [kid qNE] [kid qSE] [kid qSW] [] [] (f c north_west) []))
    as (m1 & -> & R1); try (cbn; tauto); try discriminate.
  { apply bounds_ok; right; eauto. } { apply (side_bounds dN). } { intros i Hi. apply (agree _ dN i eq_refl Hi). }
  cbn [bind].
  destruct (fill_loop (kid qNW) west south_west _ (f c west) _ R1) as (m2 & -> & R2); try (cbn; tauto); try discriminate.
  { apply bounds_ok; right; eauto. } { apply (side_bounds dW). } { intros i Hi. apply (agree _ dW i eq_refl Hi). }
  exists m2. split; auto. eapply rep_map_ext; [|exact R2]. by_dirs.
Qed.
Lemma fill_ne_ok : exists m,
  fill_ne_map gl cbs (kid qNE) (f c north) (f c east)
    (nmap8 (f c north_east) [] [] [kid qSE] [kid qSW] [kid qNW] [] []) = Ok m /\ rep_map KI m (kmap qNE).
Proof.
  unfold fill_ne_map.
  destruct (fill_loop (kid qNE) north north_west _ (f c north) _ (lit_rep (f c north_east) [] [] [kid qSE] [kid qSW] [kid qNW] [] []))
    as (m1 & -> & R1); try (cbn; tauto); try discriminate.
  { apply bounds_ok; right; eauto. } { apply (side_bounds dN). } { intros i Hi. apply (agree _ dN i eq_refl Hi). }
  cbn [bind].
  destruct (fill_loop (kid qNE) east south_east _ (f c east) _ R1) as (m2 & -> & R2); try (cbn; tauto); try discriminate.
  { apply bounds_ok; right; eauto. } { apply (side_bounds dE). } { intros i Hi. apply (agree _ dE i eq_refl Hi). }
  exists m2. split; auto. eapply rep_map_ext; [|exact R2]. by_dirs.
Qed.
Lemma fill_se_ok : exists m,
  fill_se_map gl cbs (kid qSE) (f c south) (f c east)
    (nmap8 [] [] (f c south_east) [] [] [kid qSW] [kid qNW] [kid qNE]) = Ok m /\ rep_map KI m (kmap qSE).
Proof.
  unfold fill_se_map.
  destruct (fill_loop (kid qSE) south south_west _ (f c south) _ (lit_rep [] [] (f c south_east) [] [] [kid qSW] [kid qNW] [kid qNE]))
    as (m1 & -> & R1); try (cbn; tauto); try discriminate.
  { apply bounds_ok; right; eauto. } { apply (side_bounds dS). } { intros i Hi. apply (agree _ dS i eq_refl Hi). }
  cbn [bind].
  destruct (fill_loop (kid qSE) east north_east _ (f c east) _ R1) as (m2 & -> & R2); try (cbn; tauto); try discriminate.
  { apply bounds_ok; right; eauto. } { apply (side_bounds dE). } { intros i Hi. apply (agree _ dE i eq_refl Hi). }
  exists m2. split; auto. eapply rep_map_ext; [|exact R2]. by_dirs.
Qed.

Lemma kid_ne q q' : q <> q' -> kid q <> kid q'.
Proof. intros N E. apply N, kid_inj, E. Qed.
Lemma c_ne q : kid q <> c.
Proof. intros E. apply (kid_new q). rewrite E. auto. Qed.

Lemma update_neighbours_ok g S s :
  rep KI g (all_live kid L) (stg S) -> ~ In s S -> is_corner s = false ->
  exists g', update_neighbours gl cbs g c (kid (fst (builder_pair s))) (kid (snd (builder_pair s))) (code s) = Ok g' /\
             rep KI g' (all_live kid L) (stg (s :: S)).
Proof.
  intros R Ns Cs. unfold update_neighbours, remove_node_from_neighbours.
  assert (D : In (code s) dirs) by (apply In_dirs_code; eauto).
  rewrite (rep_get KI _ _ _ _ _ R) by (auto; left; auto). cbn [bind].
  rewrite (stage_c case c kid builder_pair f L Lc kid_new irr) by auto.
  destruct (stage_remove KI remove_from_one_KI case c kid builder_pair f L Lc kid_new anti Hf g S s R Ns Cs)
    as (g1 & -> & R1).
  cbn [bind].
  rewrite (rep_get KI _ _ _ _ _ R1) by (auto; left; auto). cbn [bind].
  assert (E : remove_all (stg S) (f c (code s)) c (code s) c (code s) = f c (code s)).
  { unfold remove_all. replace (code s =? - code s) with false by (destruct s; auto).
    rewrite andb_false_r. apply (stage_c case c kid builder_pair f L Lc kid_new irr); auto. }
  rewrite E. clear E.
  destruct (stage_add KI KI_inj case c kid builder_pair f L Lc kid_new kid_inj case_rangeH Hf g1 S s Ns Cs R1)
    as (g2 & E2 & R2).
  exists g2. split; auto. rewrite <- E2. apply foldM_ext.
  intros s0 i Hi. unfold add_two, add_case, add_if_touching.
  rewrite (side_bounds s i Hi), !bounds_ok by (right; eauto). cbn [bind].
  destruct (agree (fst (builder_pair s)) s i Cs Hi) as [_ A1]. destruct (agree (snd (builder_pair s)) s i Cs Hi) as [_ A2].
  unfold icase in A1, A2. rewrite A1, A2. reflexivity.
Qed.

Lemma update_corner_eq g q o : code (opposite (corner_of q)) = o ->
  update_corner g c (code (corner_of q)) o (kid q) = corner_update KI c g (corner_of q) (kid q).
Proof. intros <-. unfold update_corner, corner_update. rewrite code_opposite. auto. Qed.

Theorem split_graph_case_ok g : rep KI g L f ->
  exists g', split_graph gl cbs g c (kid qNW) (kid qNE) (kid qSW) (kid qSE) = Ok g' /\
             rep KI g' (new_live c kid L) (final case c kid builder_pair f).
Proof.
  intros R. unfold split_graph.
  assert (D : forall s, In (code s) dirs) by (intro; apply In_dirs_code; eauto).
  rewrite !(rep_get KI _ _ _ _ _ R) by (auto; apply (D dS) || apply (D dN) || apply (D dE) || apply (D dW) || apply (D dSW)).
  cbn [bind].
  destruct fill_sw_ok as (msw & -> & Rsw). cbn [bind].
  pose proof (rep_add_node KI KI_inj _ _ _ (kid qSW) _ _ R (kid_new _) Rsw) as R1.
  rewrite (rep_get KI _ _ _ _ _ R1) by (auto; apply (D dNW)). cbn [bind].
  destruct (Z.eqb_spec c (kid qSW)) as [E|_]; [symmetry in E; destruct (c_ne _ E)|].
  destruct fill_nw_ok as (mnw & -> & Rnw). cbn [bind].
  pose proof (rep_add_node KI KI_inj _ _ _ (kid qNW) _ _ R1
    (fun H => match H with or_introl E => kid_ne qNW qSW ltac:(discriminate) E | or_intror H => kid_new _ H end) Rnw) as R2.
  rewrite (rep_get KI _ _ _ _ _ R2) by (auto; apply (D dNE)). cbn [bind].
  destruct (Z.eqb_spec c (kid qNW)) as [E|_]; [symmetry in E; destruct (c_ne _ E)|].
  destruct (Z.eqb_spec c (kid qSW)) as [E|_]; [symmetry in E; destruct (c_ne _ E)|].
  destruct fill_ne_ok as (mne & -> & Rne). cbn [bind].
  assert (X : ~ (kid qNE = kid qNW \/ kid qNE = kid qSW \/ L (kid qNE))).
  { intros [E|[E|E]]; [revert E; apply kid_ne; discriminate .. | exact (kid_new _ E)]. }
  pose proof (rep_add_node KI KI_inj _ _ _ (kid qNE) _ _ R2 X Rne) as R3. clear X.
  rewrite (rep_get KI _ _ _ _ _ R3) by (auto; apply (D dSE)). cbn [bind].
  destruct (Z.eqb_spec c (kid qNE)) as [E|_]; [symmetry in E; destruct (c_ne _ E)|].
  destruct (Z.eqb_spec c (kid qNW)) as [E|_]; [symmetry in E; destruct (c_ne _ E)|].
  destruct (Z.eqb_spec c (kid qSW)) as [E|_]; [symmetry in E; destruct (c_ne _ E)|].
  destruct fill_se_ok as (mse & -> & Rse). cbn [bind].
  assert (X : ~ (kid qSE = kid qNE \/ kid qSE = kid qNW \/ kid qSE = kid qSW \/ L (kid qSE))).
  { intros [E|[E|[E|E]]]; [revert E; apply kid_ne; discriminate .. | exact (kid_new _ E)]. }
  pose proof (rep_add_node KI KI_inj _ _ _ (kid qSE) _ _ R3 X Rse) as R4. clear X.
  assert (R0 : rep KI (add_node (add_node (add_node (add_node g (KI (kid qSW)) msw) (KI (kid qNW)) mnw) (KI (kid qNE)) mne) (KI (kid qSE)) mse)
     (all_live kid L) (stg [])).
  { eapply rep_ext; [| |exact R4].
    - intros i. unfold all_live. split.
      + intros [->|[->|[->|[->|H]]]]; eauto.
      + intros [H|[[| | |] ->]]; auto.
    - intros i d _ Hd. cbn beta. unfold stage, kmap. apply In_dirs_code in Hd as (dd & ->). rewrite dir_of_code.
      cbn [existsb].
      repeat match goal with |- context [i =? ?b] => destruct (Z.eqb_spec i b) end; auto;
      exfalso; match goal with E : i = kid ?a, E' : i = kid ?b |- _ =>
        rewrite E in E'; apply kid_inj in E'; discriminate end. }
  clear R R1 R2 R3 R4.
  destruct (update_neighbours_ok _ [] dN R0) as (g1 & E1 & R1); auto.
  cbn [builder_pair fst snd] in E1. change north with (code dN). rewrite E1. cbn [bind]. clear E1 R0.
  destruct (update_neighbours_ok _ _ dE R1) as (g2 & E2 & R2); auto. { cbn; intuition discriminate. }
  cbn [builder_pair fst snd] in E2. change east with (code dE). rewrite E2. cbn [bind]. clear E2 R1.
  destruct (update_neighbours_ok _ _ dS R2) as (g3 & E3 & R3); auto. { cbn; intuition discriminate. }
  cbn [builder_pair fst snd] in E3. change south with (code dS). rewrite E3. cbn [bind]. clear E3 R2.
  destruct (update_neighbours_ok _ _ dW R3) as (g4 & E4 & R4); auto. { cbn; intuition discriminate. }
  cbn [builder_pair fst snd] in E4. change west with (code dW). rewrite E4. cbn [bind]. clear E4 R3.
  unfold update_corner_neighbours.
  assert (SC : forall g S q, rep KI g (all_live kid L) (stg S) -> ~ In (corner_of q) S ->
    exists g', corner_update KI c g (corner_of q) (kid q) = Ok g' /\ rep KI g' (all_live kid L) (stg (corner_of q :: S))).
  { intros. apply (stage_corner KI KI_inj case c kid builder_pair f L Lc kid_new kid_inj irr uniq Hf); auto. }
  destruct (SC _ _ qNE R4) as (g5 & E5 & R5). { cbn; intuition discriminate. }
  change (update_corner g4 c north_east south_west (kid qNE)) with (update_corner g4 c (code (corner_of qNE)) south_west (kid qNE)).
  rewrite (update_corner_eq g4 qNE south_west eq_refl), E5. cbn [bind]. clear E5 R4.
  destruct (SC _ _ qNW R5) as (g6 & E6 & R6). { cbn; intuition discriminate. }
  change (update_corner g5 c north_west south_east (kid qNW)) with (update_corner g5 c (code (corner_of qNW)) south_east (kid qNW)).
  rewrite (update_corner_eq g5 qNW south_east eq_refl), E6. cbn [bind]. clear E6 R5.
  destruct (SC _ _ qSE R6) as (g7 & E7 & R7). { cbn; intuition discriminate. }
  change (update_corner g6 c south_east north_west (kid qSE)) with (update_corner g6 c (code (corner_of qSE)) north_west (kid qSE)).
  rewrite (update_corner_eq g6 qSE north_west eq_refl), E7. cbn [bind]. clear E7 R6.
  destruct (SC _ _ qSW R7) as (g8 & E8 & R8). { cbn; intuition discriminate. }
  change (update_corner g7 c south_west north_east (kid qSW)) with (update_corner g7 c (code (corner_of qSW)) north_east (kid qSW)).
  rewrite (update_corner_eq g7 qSW north_east eq_refl), E8. cbn [bind]. clear E8 R7.
  apply (stage_drop KI KI_inj case c kid builder_pair f L Lc kid_new kid_inj case_rangeH _ _) in R8; auto.
  intros s. destruct s; cbn; tauto.
Qed.
End Fill.

Theorem split_graph_ok gl cbs bx (L : Z -> Prop) f c kid :
  L c -> (forall q, ~ L (kid q)) -> (forall q q', kid q = kid q' -> q = q') ->
  (forall i j, all_live kid L i -> all_live kid L j -> icase gl bx j i = - icase gl bx i j) ->
  (forall i, all_live kid L i -> icase gl bx i i = 0) ->
  (forall i j k d, L i -> L j -> L k -> is_corner d = true ->
    icase gl bx i j = code d -> icase gl bx i k = code d -> j = k) ->
  exact_for L (icase gl bx) f ->
  (forall i, all_live kid L i -> bounds_at cbs i = Ok (bx i)) ->
  forall g, rep KI g L f ->
  exists g', split_graph gl cbs g c (kid qNW) (kid qNE) (kid qSW) (kid qSE) = Ok g' /\
             rep KI g' (new_live c kid L) (final (icase gl bx) c kid builder_pair f).
Proof.
  intros Lc Kn Ki An Ir Un Hf Bo g R.
  apply (split_graph_case_ok gl cbs bx (icase gl bx) L f c kid); auto. apply icase_range.
Qed.
