(** The invariant of meshes over a region crossing the antimeridian, and what one
    split does to it. *)
From Verif Require Import Base Geo Graph Cell Builder Spec MeshSpec GlobeSpec CrossSpec QLib CaseProofs SplitGeo Dict Rep SplitCore Stage BuilderSplit Invariant Grid Build Consequences GlobeProofs Cross.
Open Scope Z_scope.

(** Cells: [u i] is the cell at position i in the frame, where the region is [F]. *)
Definition cells_with (off W : Q) (F : box) (u : Z -> boundary) (m : mesh) : Prop :=
  (forall i c, live_cell m i c -> cb_id c = Z.of_nat i /\ times_ok (time_range (cb_bounds c)) /\
     in_frame W (u (Z.of_nat i)) /\ unrolled off (cb_bounds c) (u (Z.of_nat i))) /\
  (forall i j, live_of (cells m) i -> live_of (cells m) j -> i <> j -> sep (region (u i)) (region (u j))) /\
  (forall x y, mem F x y -> exists i, live_of (cells m) i /\ mem (region (u i)) x y) /\
  (forall i x y, live_of (cells m) i -> mem (region (u i)) x y -> mem F x y).
Definition graph_with (u : Z -> boundary) (m : mesh) : Prop :=
  exists f, rep KI (ng m) (live_of (cells m)) f /\ exact_for (live_of (cells m)) (icase false u) f.

Section Step.
Variable off W : Q.
Variable F : box.
Variable u : Z -> boundary.
Variable m : mesh.
Variable i : nat.
Variable c : cellbox.
Hypothesis HW : (W < 360)%Q.
Hypothesis Gl : glob m = false.
Hypothesis CW : cells_with off W F u m.
Hypothesis Li : live_cell m i c.

Let ci := Z.of_nat i.
Let L := live_of (cells m).
Let v := u ci.
Notation kid := (kid_idx m).

Lemma cross_cell_split : exists kidc, cell_split c (Z.of_nat (List.length (cells m))) = Ok (map kidc quads) /\
  split_bounds (cb_bounds c) = Ok (map (fun q => cb_bounds (kidc q)) quads) /\
  forall q, cb_id (kidc q) = kid q /\ unrolled off (cb_bounds (kidc q)) (qb q v) /\
            times_ok (time_range (cb_bounds (kidc q))).
Proof.
  destruct CW as (C1 & _). destruct (C1 i c Li) as (_ & T & Fr & U).
  destruct (split_bounds_cross off W (cb_bounds c) v HW Fr U T) as (ks & E & Hk).
  exists (fun q => mkCell (ks q) (kid q) (cb_depth c + 1) (child_sources (ks q) (cb_sources c)) (Some c)).
  split; [|split].
  - unfold cell_split. rewrite E. cbn. repeat f_equal; rewrite ?Z.add_0_r; auto.
  - exact E.
  - intros q. cbn [cb_id cb_bounds]. destruct (Hk q) as [H1 H2]. rewrite H2. auto.
Qed.

Section WithKids.
Variable kidc : quad -> cellbox.
Hypothesis splitE : split_bounds (cb_bounds c) = Ok (map (fun q => cb_bounds (kidc q)) quads).
Hypothesis kidH : forall q, cb_id (kidc q) = kid q /\ unrolled off (cb_bounds (kidc q)) (qb q v) /\
            times_ok (time_range (cb_bounds (kidc q))).

Let cs' := cells m ++ map Some (map kidc quads).
Let bx' := bx_of cs'.
Definition u' (j : Z) : boundary :=
  if j =? kid qNW then qb qNW v else if j =? kid qNE then qb qNE v
  else if j =? kid qSW then qb qSW v else if j =? kid qSE then qb qSE v else u j.
Definition kidp (j : Z) : bool := (j =? kid qNW) || (j =? kid qNE) || (j =? kid qSW) || (j =? kid qSE).
Lemma kidp_kid q : kidp (kid q) = true.
Proof. unfold kidp. destruct q; rewrite Z.eqb_refl, ?orb_true_r; reflexivity. Qed.
Lemma kidp_old j : L j -> kidp j = false.
Proof.
  intros H. unfold kidp.
  repeat match goal with |- context [j =? ?b] => destruct (Z.eqb_spec j b) as [E|_]; [exfalso; rewrite E in H; exact (kid_not_live m _ H)|] end. reflexivity.
Qed.
Lemma u'_old j : L j -> u' j = u j.
Proof.
  intros H. unfold u'.
  repeat match goal with |- context [j =? ?b] => destruct (Z.eqb_spec j b) as [E|_]; [exfalso; rewrite E in H; exact (kid_not_live m _ H)|] end. reflexivity.
Qed.
Lemma u'_kid q : u' (kid q) = qb q v.
Proof. unfold u'. rewrite !(kid_eqb kid (kid_idx_inj m)). destruct q; reflexivity. Qed.
Notation AL := (all_live kid L).
Notation NL := (new_live ci kid L).

Lemma old_frame j : L j -> in_frame W (u j) /\ unrolled off (bx' j) (u j).
Proof.
  intros H. unfold bx', cs'. rewrite (bx'_old m i kidc j H). destruct (L_inv m j H) as (c' & Hl & ->).
  destruct CW as (C1 & _). destruct (C1 _ _ Hl) as (_ & _ & A & B). rewrite Z2Nat.id in A, B by apply H. auto.
Qed.
Lemma v_frame : in_frame W v.
Proof. apply (old_frame ci). eapply live_of_cell; eauto. Qed.
Lemma AL_frame j : AL j -> in_frame W (u' j) /\ unrolled off (bx' j) (u' j).
Proof.
  intros [H|[q ->]].
  - rewrite u'_old by auto. apply old_frame; auto.
  - rewrite u'_kid. split; [apply qb_ok; apply v_frame|]. unfold bx', cs'. rewrite (bx'_kid m i kidc). apply kidH.
Qed.
Lemma AL_ok' j : AL j -> cell_ok false (u' j).
Proof. intros H. apply (AL_frame j H). Qed.
Lemma AL_proper j : AL j -> proper (region (bx' j)).
Proof. intros H. destruct (AL_frame j H). eapply unrolled_proper; eauto. Qed.

Lemma uE a b d : AL a -> AL b -> (icase false u' a b = code d <-> lin d (region (u' a)) (region (u' b))).
Proof. intros. apply (fam_case false AL u' AL_ok'); auto. Qed.
Lemma rE a b d : AL a -> AL b -> (icase false bx' a b = code d <-> lin d (region (bx' a)) (region (bx' b))).
Proof. intros. apply (case_bounds_proper (bx' a) (bx' b)); apply AL_proper; auto. Qed.
Lemma uT a b d : AL a -> AL b -> (icase false u' a b = code d <-> touches_mod d (region (bx' a)) (region (bx' b))).
Proof.
  intros A B. destruct (AL_frame a A), (AL_frame b B). rewrite uE by auto. symmetry.
  apply (frame_lin W off); auto.
Qed.
Lemma r_anti a b : AL a -> AL b -> icase false bx' b a = - icase false bx' a b.
Proof.
  intros A B. destruct (icase_range false bx' a b) as [E|[d E]].
  - destruct (icase_range false bx' b a) as [E'|[d E']]; [rewrite E, E'; auto|].
    apply rE in E'; auto. apply lin_sym in E'. apply rE in E'; auto.
    rewrite E in E'. symmetry in E'. destruct (code_nonzero _ E').
  - rewrite E. rewrite <- code_opposite. apply rE; auto. apply lin_sym. apply rE; auto.
Qed.

Lemma L_sep' j k : L j -> L k -> j <> k -> sep (region (u' j)) (region (u' k)).
Proof. intros Hj Hk N. rewrite !u'_old by auto. destruct CW as (_ & C2 & _). apply C2; auto. Qed.
Lemma L_ci : L ci. Proof. eapply live_of_cell; eauto. Qed.
Lemma kid_quarter' q : quarter q (region (u' ci)) (region (u' (kid q))).
Proof. rewrite u'_kid, u'_old by apply L_ci. apply (qb_ok W). apply v_frame. Qed.
Lemma Pc : proper (region (u' ci)).
Proof. rewrite u'_old by apply L_ci. apply (frame_proper W). apply v_frame. Qed.
Lemma NL_sep' j k : NL j -> NL k -> j <> k -> sep (region (u' j)) (region (u' k)).
Proof.
  intros [[Hj Nj]|[q ->]] [[Hk Nk]|[q' ->]] N.
  - apply L_sep'; auto.
  - apply sep_sym. eapply quarter_sep; [exact Pc | apply kid_quarter' |]. apply L_sep'; auto. apply L_ci.
  - eapply quarter_sep; [exact Pc | apply kid_quarter' |]. apply L_sep'; auto. apply L_ci.
  - eapply siblings_sep; [exact Pc | apply kid_quarter' | apply kid_quarter' |]. congruence.
Qed.

Definition m1 (g' : graph) : mesh := mkMesh (list_set cs' i None) g' (glob m).

Lemma NL_iff j : NL j <-> live_of (list_set cs' i None) j.
Proof. apply (NL_live m i c Li kidc). Qed.

Lemma cells_after g' : cells_with off W F u' (m1 g').
Proof.
  pose proof CW as (C1 & C2 & C3 & C4). split; [|split; [|split]]; unfold m1, live_cell; cbn [cells].
  - intros j x H. apply (live_after m i c Li kidc) in H. destruct H as [[H N]|(q & -> & ->)].
    + rewrite u'_old by (eapply live_of_cell; eauto). apply C1; auto.
    + destruct (kidH q) as (K1 & K2 & K3). rewrite <- kid_idx_pos, u'_kid.
      split; auto. split; auto. split; auto. apply qb_ok. apply v_frame.
  - intros j k Hj Hk N. apply NL_iff in Hj, Hk. apply NL_sep'; auto.
  - intros x y M. destruct (C3 x y M) as (j & Lj & Mj). destruct (Z.eq_dec j ci) as [->|N].
    + destruct (quarter_cover (fun q => region (u' (kid q))) (region (u' ci)) x y Pc) as (q & Mq).
      { apply kid_quarter'. } { rewrite u'_old by apply L_ci. auto. }
      exists (kid q). split; auto. apply NL_iff. right; eauto.
    + exists j. split; [apply NL_iff; left; auto|]. rewrite u'_old by auto. auto.
  - intros j x y Hj M. apply NL_iff in Hj as [[Hj N]|[q ->]].
    + rewrite u'_old in M by auto. eauto.
    + apply (C4 ci); [apply L_ci|]. rewrite <- (u'_old ci) by apply L_ci.
      eapply quarter_mem; [exact Pc|apply kid_quarter'|exact M].
Qed.

(** *** A graph that lists only contacts, in both directions, but perhaps not all *)
Section Sound.
Variable s : Z -> Z -> Z.
Variable f : Z -> Z -> list Z.
Hypothesis Rf : rep KI (ng m) L f.
Hypothesis Ef : exact_for L s f.
Hypothesis Santi : forall a b, L a -> L b -> s b a = - s a b.
Hypothesis Srange : forall a b, s a b = 0 \/ exists d, s a b = code d.
Hypothesis Strue : forall a b, L a -> L b -> s a b = 0 \/ s a b = icase false u a b.

Definition kcorner (a : Z) : Z :=
  if a =? kid qNW then code dNW else if a =? kid qNE then code dNE
  else if a =? kid qSW then code dSW else code dSE.
Lemma kcorner_kid q : kcorner (kid q) = code (corner_of q).
Proof. unfold kcorner. rewrite !(kid_eqb kid (kid_idx_inj m)). destruct q; reflexivity. Qed.
Definition side_code (z : Z) : bool := (z =? code dN) || (z =? code dE) || (z =? code dS) || (z =? code dW).
Lemma side_code_code d : side_code (code d) = negb (is_corner d).
Proof. destruct d; reflexivity. Qed.
(** What a quarter [a] lists of an old cell [b]. *)
Definition klists (a b : Z) : Z :=
  if side_code (s ci b) then icase false bx' a b
  else if s ci b =? kcorner a then kcorner a else 0.
Definition lists' (a b : Z) : Z :=
  if kidp a then if kidp b then icase false u' a b else klists a b
  else if kidp b then - klists b a else s a b.

Lemma klists_range a b : klists a b = 0 \/ exists d, klists a b = code d.
Proof.
  unfold klists. destruct (side_code _); [apply icase_range|]. destruct (s ci b =? kcorner a) eqn:E; auto.
  apply Z.eqb_eq in E. rewrite <- E. apply Srange.
Qed.
Lemma lists'_range a b : lists' a b = 0 \/ exists d, lists' a b = code d.
Proof.
  unfold lists'. destruct (kidp a), (kidp b); [apply icase_range|apply klists_range| |apply Srange].
  destruct (klists_range b a) as [->|[d ->]]; auto. right. exists (opposite d). symmetry. apply code_opposite.
Qed.
Lemma lists'_anti a b : AL a -> AL b -> lists' b a = - lists' a b.
Proof.
  intros A B. unfold lists'. destruct (kidp a) eqn:Ka, (kidp b) eqn:Kb.
  - apply (fam_anti false AL u' AL_ok'); auto.
  - reflexivity.
  - lia.
  - assert (La : L a) by (destruct A as [A|[q ->]]; [auto|rewrite kidp_kid in Ka; discriminate]).
    assert (Lb : L b) by (destruct B as [B|[q ->]]; [auto|rewrite kidp_kid in Kb; discriminate]).
    apply Santi; auto.
Qed.
Lemma Strue' a b : L a -> L b -> s a b = 0 \/ s a b = icase false u' a b.
Proof. intros A B. unfold icase. rewrite !u'_old by auto. apply Strue; auto. Qed.
Lemma s_code a b d : L a -> L b -> s a b = code d -> icase false u' a b = code d.
Proof. intros A B E. destruct (Strue' a b A B) as [Z|Z]; [rewrite E in Z; destruct (code_nonzero _ Z)|congruence]. Qed.
Lemma s_irr a : L a -> s a a = 0.
Proof.
  intros A. destruct (Strue' a a A A) as [E|E]; auto. rewrite E. apply (fam_irr false AL u' AL_ok'). left; auto.
Qed.
Lemma raw_true q b : L b -> icase false bx' (kid q) b = 0 \/ icase false bx' (kid q) b = icase false u' (kid q) b.
Proof.
  intros B. destruct (icase_range false bx' (kid q) b) as [E|[d E]]; auto. right. rewrite E. symmetry.
  assert (AA : AL (kid q)) by (right; eauto). assert (BB : AL b) by (left; auto).
  apply uT; auto. apply rE in E; auto. exists 0.
  apply touches_lin; [apply AL_proper; auto|apply shift_proper; apply AL_proper; auto|].
  assert (T : forall r t, lin d r t -> lin d r (shift (inject_Z 0 * 360) t)).
  { intros r t. change (inject_Z 0) with 0%Q. destruct d; cbn; lra. }
  apply T; auto.
Qed.
Lemma klists_true q b : L b -> klists (kid q) b = 0 \/ klists (kid q) b = icase false u' (kid q) b.
Proof.
  intros B. unfold klists. destruct (side_code _) eqn:S; [apply raw_true; auto|]. rewrite kcorner_kid.
  destruct (Z.eqb_spec (s ci b) (code (corner_of q))) as [E|]; auto. right. symmetry.
  apply s_code in E; [|apply L_ci|auto]. apply uE in E; [|left; apply L_ci|left; auto].
  apply uE; [right; eauto|left; auto|]. eapply lin_corner; [exact Pc|apply kid_quarter'|exact E].
Qed.
Lemma lists'_true a b : AL a -> AL b -> lists' a b = 0 \/ lists' a b = icase false u' a b.
Proof.
  intros A B. unfold lists'. destruct A as [A|[q ->]]; destruct B as [B|[q' ->]]; rewrite ?kidp_kid, ?kidp_old by auto.
  - apply Strue'; auto.
  - destruct (klists_true q' a A) as [->| ->]; auto. right.
    symmetry. apply (fam_anti false AL u' AL_ok'); [right; eauto|left; auto].
  - apply klists_true; auto.
  - auto.
Qed.
Lemma lists'_old a b : L a -> L b -> lists' a b = s a b.
Proof. intros A B. unfold lists'. rewrite !kidp_old by auto. reflexivity. Qed.
Lemma lists'_exact : exact_for L lists' f.
Proof. eapply exact_for_ext; [| |exact Ef]; [tauto|]. intros; symmetry; apply lists'_old; auto. Qed.
Lemma lists'_irr a : AL a -> lists' a a = 0.
Proof.
  intros A. destruct (lists'_true a a A A) as [E|E]; auto. rewrite E. apply (fam_irr false AL u' AL_ok'); auto.
Qed.
Lemma lists'_uniq a b e d : L a -> L b -> L e -> is_corner d = true ->
  lists' a b = code d -> lists' a e = code d -> b = e.
Proof.
  intros A B E C X Y. rewrite lists'_old in X, Y by auto. apply s_code in X, Y; auto.
  assert (okL : forall j, L j -> cell_ok false (u' j)) by (intros; apply AL_ok'; left; auto).
  exact (fam_uniq false L u' okL L_sep' a b e d A B E C X Y).
Qed.

Lemma sound_step : exists g', split_graph false (cell_bounds_list cs') (ng m) ci (kid qNW) (kid qNE) (kid qSW) (kid qSE) = Ok g' /\
  exists f', rep KI g' (live_of (list_set cs' i None)) f' /\ exact_for (live_of (list_set cs' i None)) lists' f'.
Proof.
  destruct (split_graph_case_ok false (cell_bounds_list cs') bx' lists' L f ci kid L_ci (kid_not_live m) (kid_idx_inj m)
     lists'_anti lists'_irr lists'_uniq lists'_exact lists'_range) with (g := ng m) as (g2 & Eg2 & Rg); auto.
  - intros q d j Cs Hj. apply Ef in Hj as [Lj Ej]; [|apply L_ci|apply In_dirs_code; eauto].
    assert (K : lists' (kid q) j = icase false bx' (kid q) j).
    { unfold lists'. rewrite kidp_kid, kidp_old by auto. unfold klists. rewrite Ej, side_code_code, Cs. reflexivity. }
    split; [symmetry; exact K|]. rewrite (r_anti (kid q) j), (lists'_anti (kid q) j) by (solve [left; auto | right; eauto]). congruence.
  - intros j Hj. apply bounds_at_live. apply (AL_live m i kidc); auto.
  - exists g2. split; auto. exists (final lists' ci kid builder_pair f). split.
    + eapply rep_ext; [| |exact Rg]; auto. intros j. apply NL_iff.
    + apply (exact_for_ext NL _ lists'); [apply NL_iff|auto|].
      assert (okL : forall j, L j -> cell_ok false (u' j)) by (intros; apply AL_ok'; left; auto).
      apply final_exact; auto.
      * apply builder_pair_ok.
      * apply L_ci.
      * apply kid_not_live.
      * apply kid_idx_inj.
      * apply lists'_range.
      * apply lists'_anti.
      * apply lists'_irr.
      * intros q j d Hj Nj Ed. rewrite lists'_old by (auto; apply L_ci).
        assert (Eu : icase false u' (kid q) j = code d).
        { destruct (lists'_true (kid q) j) as [Z|Z]; [right; eauto|left; auto|rewrite Ed in Z; destruct (code_nonzero _ Z)|congruence]. }
        apply uE in Eu; [|right; eauto|left; auto].
        destruct (contact_up false q d (region (u' ci)) (region (u' (kid q))) (region (u' j))) as (d' & U & C'); auto.
        -- apply (fam_circle false L u' okL). apply L_ci.
        -- apply (fam_circle false L u' okL). auto.
        -- apply kid_quarter'.
        -- apply L_sep'; auto. apply L_ci.
        -- exists d'. split; auto. apply uE in C'; [|left; apply L_ci|left; auto].
           destruct (Strue' ci j L_ci Hj) as [Z|Z]; [|congruence]. exfalso.
           unfold lists' in Ed. rewrite kidp_kid, kidp_old in Ed by auto. unfold klists in Ed. rewrite Z in Ed.
           change (side_code 0) with false in Ed. cbv iota in Ed. rewrite kcorner_kid in Ed.
           destruct (Z.eqb_spec 0 (code (corner_of q))) as [Q|_]; [symmetry in Q; destruct (code_nonzero _ Q)|].
           symmetry in Ed. destruct (code_nonzero _ Ed).
      * intros q j Hj Nj Ed. rewrite lists'_old in Ed by (auto; apply L_ci).
        unfold lists'. rewrite kidp_kid, kidp_old by auto. unfold klists. rewrite Ed, side_code_code, kcorner_kid, Z.eqb_refl.
        destruct q; reflexivity.
      * intros q q' d S. unfold lists'. rewrite !kidp_kid. apply uE; [right; eauto|right; eauto|].
        eapply lin_sibling; [exact Pc|apply kid_quarter'|apply kid_quarter'|exact S].
      * apply lists'_uniq.
      * apply lists'_exact.
Qed.
End Sound.

(** *** The graph *)
Variable f : Z -> Z -> list Z.
Hypothesis Rf : rep KI (ng m) L f.
Hypothesis Ef : exact_for L (icase false u) f.

Lemma Ef' : exact_for L (icase false u') f.
Proof. eapply exact_for_ext; [| |exact Ef]; [tauto|]. intros j k Hj Hk. unfold icase. rewrite !u'_old; auto. Qed.

(** The contacts the code sees: raw between the quarters and old cells. *)
Definition seen (a b : Z) : Z :=
  if xorb (kidp a) (kidp b) then icase false bx' a b else icase false u' a b.

Lemma seen_split : exists g', split_graph false (cell_bounds_list cs') (ng m) ci (kid qNW) (kid qNE) (kid qSW) (kid qSE) = Ok g' /\
  rep KI g' NL (final seen ci kid builder_pair f).
Proof.
  assert (Santi : forall a b, AL a -> AL b -> seen b a = - seen a b).
  { intros a b A B. unfold seen. rewrite xorb_comm. destruct (xorb _ _); [apply r_anti; auto|].
    apply (fam_anti false AL u' AL_ok'); auto. }
  assert (old : forall a b, L a -> L b -> seen a b = icase false u' a b).
  { intros a b A B. unfold seen. rewrite !kidp_old by auto. reflexivity. }
  apply (split_graph_case_ok false (cell_bounds_list cs') bx' seen L f ci kid).
  - apply L_ci.
  - apply kid_not_live.
  - apply kid_idx_inj.
  - exact Santi.
  - intros a A. unfold seen. rewrite xorb_nilpotent. apply (fam_irr false AL u' AL_ok'); auto.
  - intros a b e d A B E C. rewrite !old by auto.
    apply (fam_uniq false L u'); auto. { intros; apply AL_ok'; left; auto. } apply L_sep'.
  - eapply exact_for_ext; [| |exact Ef']; [tauto|]. intros; symmetry; apply old; auto.
  - intros a b. unfold seen. destruct (xorb _ _); apply icase_range.
  - intros q s j Cs Hj. assert (Lj : L j) by (apply (Ef' ci (code s)); [apply L_ci|apply In_dirs_code; eauto|exact Hj]).
    unfold seen. rewrite kidp_kid, kidp_old by auto. split; reflexivity.
  - intros j Hj. apply bounds_at_live. apply (AL_live m i kidc); auto.
  - exact Rf.
Qed.

Lemma cell_split_m1 g' : cell_split c (Z.of_nat (List.length (cells m))) = Ok (map kidc quads) ->
  split_graph false (cell_bounds_list cs') (ng m) ci (kid qNW) (kid qNE) (kid qSW) (kid qSE) = Ok g' ->
  split_and_replace m i = Ok (m1 g').
Proof.
  intros Es Eg. unfold split_and_replace. rewrite (py_nth_some _ _ _ Li). cbn [bind]. rewrite Es. cbn [bind].
  rewrite Gl. unfold cs', ci, kid_idx in Eg. rewrite Eg. cbn [bind]. unfold m1. rewrite Gl. reflexivity.
Qed.

Lemma bx'_ci : bx' ci = cb_bounds c.
Proof. unfold bx', cs'. apply (bx'_c m i c Li kidc). Qed.
Lemma bx'_cell j c' : live_cell m j c' -> bx' (Z.of_nat j) = cb_bounds c'.
Proof.
  intros H. unfold bx', cs'. rewrite (bx'_old m i kidc) by (eapply live_of_cell; eauto). apply (bx_live m); auto.
Qed.

Lemma plain_graph : quarters_touch_plainly m c -> forall g',
  split_graph false (cell_bounds_list cs') (ng m) ci (kid qNW) (kid qNE) (kid qSW) (kid qSE) = Ok g' ->
  graph_with u' (m1 g').
Proof.
  intros QP g' Eg.
  assert (Ag : forall q s j, is_corner s = false -> In j (f ci (code s)) -> icase false bx' (kid q) j = icase false u' (kid q) j).
  { intros q s j Cs Hj. apply Ef' in Hj as [Lj Ej]; [|apply L_ci|apply In_dirs_code; eauto].
    assert (A : AL (kid q)) by (right; eauto). assert (B : AL j) by (left; auto).
    assert (Hs : touches_mod s (region (bx' ci)) (region (bx' j))) by (apply uT; auto; left; apply L_ci).
    destruct (live_of_inv m j Lj) as (nj & c' & -> & Lnj).
    assert (Sd : side s) by (unfold side; destruct s; try discriminate; auto).
    assert (X : forall d, icase false bx' (kid q) (Z.of_nat nj) = code d <-> icase false u' (kid q) (Z.of_nat nj) = code d).
    { intros d. split; intros Ed.
      - apply uT; auto. apply rE in Ed; auto. exists 0.
        apply touches_lin; [apply AL_proper; auto|apply shift_proper; apply AL_proper; auto|].
        assert (T : forall r s, lin d r s -> lin d r (shift (inject_Z 0 * 360) s)).
        { intros r s0. change (inject_Z 0) with 0%Q. destruct d; cbn; lra. }
        apply T; auto.
      - apply rE; auto. apply uT in Ed; auto.
        apply touches_lin; [apply AL_proper; auto|apply AL_proper; auto|].
        unfold bx' at 1, cs' at 1 in Ed. unfold bx' at 1, cs' at 1. rewrite (bx'_kid m i kidc) in *.
        rewrite bx'_cell with (c' := c') in * by auto. rewrite bx'_ci in Hs.
        eapply (QP _ (cb_bounds (kidc q)) nj c' s d splitE); eauto.
        apply (in_map (fun q => cb_bounds (kidc q))). destruct q; cbn; tauto. }
    destruct (icase_range false bx' (kid q) (Z.of_nat nj)) as [E0|[d E0]].
    - destruct (icase_range false u' (kid q) (Z.of_nat nj)) as [E1|[d E1]]; [congruence|].
      apply X in E1. rewrite E0 in E1. symmetry in E1. destruct (code_nonzero _ E1).
    - rewrite E0. symmetry. apply X; auto. }
  destruct (split_graph_case_ok false (cell_bounds_list cs') bx' (icase false u') L f ci kid L_ci (kid_not_live m) (kid_idx_inj m)
     (fam_anti false AL u' AL_ok') (fam_irr false AL u' AL_ok')) with (g := ng m) as (g2 & Eg2 & Rg); auto.
  - apply (fam_uniq false L u'). { intros; apply AL_ok'; left; auto. } apply L_sep'.
  - apply Ef'.
  - apply icase_range.
  - intros q s j Cs Hj. split; [eapply Ag; eauto|].
    assert (Lj : L j) by (apply (Ef' ci (code s)); [apply L_ci|apply In_dirs_code; eauto|exact Hj]).
    rewrite (r_anti (kid q) j), (fam_anti false AL u' AL_ok' (kid q) j) by (solve [left; auto | right; eauto]). f_equal. eapply Ag; eauto.
  - intros j Hj. apply bounds_at_live. apply (AL_live m i kidc); auto.
  - rewrite Eg in Eg2. injection Eg2 as <-.
    exists (final (icase false u') ci kid builder_pair f). unfold m1. cbn [ng cells]. split.
    + eapply rep_ext; [| |exact Rg]; auto. intros j. apply NL_iff.
    + apply (exact_for_ext NL _ (icase false u')); [apply NL_iff|auto|].
      assert (okL : forall j, L j -> cell_ok false (u' j)) by (intros; apply AL_ok'; left; auto).
      apply final_exact; auto.
      * apply builder_pair_ok.
      * apply L_ci.
      * apply kid_not_live.
      * apply kid_idx_inj.
      * apply icase_range.
      * apply (fam_anti false AL u' AL_ok').
      * apply (fam_irr false AL u' AL_ok').
      * intros q j d Hj Nj Ed. apply uE in Ed; [|right; eauto|left; auto].
        destruct (contact_up false q d (region (u' ci)) (region (u' (kid q))) (region (u' j))) as (d' & U & C'); auto.
        -- apply (fam_circle false L u' okL). apply L_ci.
        -- apply (fam_circle false L u' okL). auto.
        -- apply kid_quarter'.
        -- apply L_sep'; auto. apply L_ci.
        -- exists d'. split; auto. apply uE; auto; left; auto. apply L_ci.
      * intros q j Hj Nj Ed. apply uE in Ed; [|left; apply L_ci|left; auto].
        apply uE; [right; eauto|left; auto|]. eapply lin_corner; [exact Pc|apply kid_quarter'|exact Ed].
      * intros q q' d S. apply uE; [right; eauto|right; eauto|].
        eapply lin_sibling; [exact Pc|apply kid_quarter'|apply kid_quarter'|exact S].
      * apply (fam_uniq false L u' okL L_sep').
      * apply Ef'.
Qed.

Lemma exact_plain g' :
  split_graph false (cell_bounds_list cs') (ng m) ci (kid qNW) (kid qNE) (kid qSW) (kid qSE) = Ok g' ->
  graph_exact touches_mod (m1 g') -> quarters_touch_plainly m c.
Proof.
  intros Eg (_ & _ & G3) ks k j c' d d' Es Hk Lj Sd Td Td'.
  destruct seen_split as (g2 & Eg2 & R2). rewrite Eg in Eg2. injection Eg2 as <-.
  rewrite splitE in Es. injection Es as <-.
  assert (exists q, k = cb_bounds (kidc q)) as (q & ->).
  { cbn in Hk. destruct Hk as [<-|[<-|[<-|[<-|[]]]]]; eauto. }
  assert (LZ : L (Z.of_nat j)) by (eapply live_of_cell; eauto).
  assert (A : AL (kid q)) by (right; eauto). assert (B : AL (Z.of_nat j)) by (left; auto). assert (Ac : AL ci) by (left; apply L_ci).
  assert (Ed : icase false u' ci (Z.of_nat j) = code d).
  { apply uT; auto. rewrite bx'_ci, (bx'_cell j c') by auto. auto. }
  assert (Ni : j <> i).
  { intros ->. rewrite (fam_irr false AL u' AL_ok') in Ed by auto. symmetry in Ed. destruct (code_nonzero _ Ed). }
  assert (Lk : live_cell (m1 g') (List.length (cells m) + qpos q) (kidc q)).
  { unfold live_cell, m1. cbn [cells]. apply (live_after m i c Li kidc). right. eauto. }
  assert (Ljj : live_cell (m1 g') j c').
  { unfold live_cell, m1. cbn [cells]. apply (live_after m i c Li kidc). left. auto. }
  destruct (G3 _ _ d' Lk) as (l & El & _ & X).
  assert (Inl : In (Z.of_nat j) l) by (apply X; eauto).
  rewrite <- kid_idx_pos in El. unfold m1 in El. cbn [ng] in El.
  rewrite (rep_get KI _ _ _ _ _ R2) in El by (solve [right; eauto | apply In_dirs_code; eauto]).
  injection El as <-. rewrite (final_kid seen ci kid builder_pair f (kid_idx_inj m)) in Inl. unfold kid_list in Inl.
  destruct (sib_at q d') as [q'|].
  { destruct Inl as [E|[]]. exfalso. rewrite <- E in LZ. exact (kid_not_live m _ LZ). }
  destruct (up q d') as [s|]; [|destruct Inl].
  destruct (is_corner s) eqn:Cs.
  - apply Ef' in Inl as [_ Es]; [|apply L_ci|apply In_dirs_code; eauto]. rewrite Ed in Es. apply code_inj in Es. subst s.
    destruct Sd as [-> | [-> | [-> | ->]]]; discriminate.
  - apply filter_In in Inl as [_ Es]. apply Z.eqb_eq in Es. unfold seen in Es.
    rewrite kidp_kid, kidp_old in Es by auto. cbn [xorb] in Es. apply rE in Es; auto.
    apply touches_lin in Es; try (apply AL_proper; auto).
    unfold bx' at 1, cs' at 1 in Es. rewrite (bx'_kid m i kidc), (bx'_cell j c') in Es by auto. exact Es.
Qed.
End WithKids.
End Step.

(** ** Consequences *)
Definition cross_cells (off W : Q) (F : box) (m : mesh) : Prop :=
  glob m = false /\ exists u, cells_with off W F u m.
Definition cross_inv (off W : Q) (F : box) (m : mesh) : Prop :=
  glob m = false /\ exists u, cells_with off W F u m /\ graph_with u m.
Lemma cross_inv_cells off W F m : cross_inv off W F m -> cross_cells off W F m.
Proof. intros (G & u & C & _). split; eauto. Qed.

Lemma cross_graph_exact off W F m : (W < 360)%Q -> cross_inv off W F m -> graph_exact touches_mod m.
Proof.
  intros HW (Gl & u & (C1 & C2 & _) & f & R & E). pose proof R as (R1 & R2 & R3). split; [|split]; auto.
  - intros k. rewrite R2. split.
    + intros (z & -> & L). apply live_of_inv in L as (i & c & -> & L). eauto.
    + intros (i & c & -> & L). exists (Z.of_nat i). split; auto. eapply live_of_cell; eauto.
  - intros i c d Hi. pose proof (live_of_cell m i c Hi) as Li.
    assert (Hd : In (code d) dirs) by (apply In_dirs_code; eauto).
    exists (f (Z.of_nat i) (code d)).
    split; [apply (rep_get KI _ (live_of (cells m))); auto|].
    destruct (E _ _ Li Hd) as [N X]. split; auto.
    assert (Y : forall j c', live_cell m j c' -> (icase false u (Z.of_nat i) (Z.of_nat j) = code d <->
        touches_mod d (region (cb_bounds c)) (region (cb_bounds c')))).
    { intros j c' Hj. destruct (C1 _ _ Hi) as (_ & _ & Fi & Ui). destruct (C1 _ _ Hj) as (_ & _ & Fj & Uj).
      rewrite (frame_lin W off _ _ (u (Z.of_nat i)) (u (Z.of_nat j)) d HW Fi Fj Ui Uj).
      apply (case_contact false (u (Z.of_nat i)) (u (Z.of_nat j)) (proj1 Fi) (proj1 Fj) d). }
    intros z. rewrite X. split.
    + intros [Lz Ez]. apply live_of_inv in Lz as (j & c' & -> & Lj). exists j, c'. split; auto. split; auto.
      apply (Y j c'); auto.
    + intros (j & c' & -> & Lj & T). split; [eapply live_of_cell; eauto|]. apply (Y j c'); auto.
Qed.

Theorem cross_split off W F m i c : (W < 360)%Q -> cross_inv off W F m -> live_cell m i c ->
  exists m', split_and_replace m i = Ok m' /\ cross_cells off W F m' /\
    (graph_exact touches_mod m' <-> quarters_touch_plainly m c) /\
    (quarters_touch_plainly m c -> cross_inv off W F m').
Proof.
  intros HW (Gl & u & CW & f & R & E) Li.
  destruct (cross_cell_split off W F u m i c HW CW Li) as (kidc & Es & Eb & Hk).
  destruct (seen_split off W F u m i c CW Li kidc Hk f R E) as (g' & Eg & _).
  exists (m1 m i kidc g').
  assert (CA : cells_with off W F (u' u m i) (m1 m i kidc g')) by (apply (cells_after off W F u m i c CW Li kidc Hk)).
  assert (PI : quarters_touch_plainly m c -> cross_inv off W F (m1 m i kidc g')).
  { intros QP. split; [exact Gl|]. exists (u' u m i). split; auto.
    eapply (plain_graph off W F u m i c HW CW Li kidc Eb Hk f R E QP g' Eg). }
  split; [|split; [|split]]; auto.
  - apply (cell_split_m1 m i c Gl Li kidc); auto.
  - split; [exact Gl|]. eauto.
  - split; [|intros QP; apply (cross_graph_exact off W F); auto].
    apply (exact_plain off W F u m i c HW CW Li kidc Eb Hk f R E g' Eg).
Qed.
