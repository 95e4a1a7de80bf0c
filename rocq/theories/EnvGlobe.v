(** Splits of a loaded mesh around the globe: the code tests contacts without moving cells
    by 360 degrees. *)
From Verif Require Import Base Geo Graph Cell Builder Env Spec MeshSpec EnvSpec CrossSpec EnvGlobeSpec QLib CaseProofs SplitGeo Dict Rep SplitCore Stage BuilderSplit
  Invariant Consequences EnvSplit EnvInv.
Open Scope Z_scope.

Lemma wide_ok b : plane_bounds b -> (long_max b - long_min b < 180)%Q -> cell_ok true b.
Proof. intros ((P1 & P2 & P3 & P4) & _) W. split; [split; auto|]. split; [auto|split; auto]. Qed.

Lemma case_touches_mod cs : (forall c, In c cs -> cell_ok true (e_bounds c)) ->
  forall c c' d, In c cs -> In c' cs -> (get_neighbour_case true (e_bounds c) (e_bounds c') = code d <-> touches_mod d (region (e_bounds c)) (region (e_bounds c'))).
Proof.
  intros P c c' d Hc Hc'. rewrite case_contact by (apply P; auto).
  symmetry. apply (adjacency_contact true); apply (cell_ok_box true); apply P; auto.
Qed.

Definition beq (a b : box) : Prop := (x0 a == x0 b /\ x1 a == x1 b /\ y0 a == y0 b /\ y1 a == y1 b)%Q.
Lemma touches_beq d a a' b b' : beq a a' -> beq b b' -> touches d a b -> touches d a' b'.
Proof.
  intros (A1 & A2 & A3 & A4) (B1 & B2 & B3 & B4). unfold touches, x_overlap, y_overlap.
  destruct d; try lra; intros (E & x & (X1 & X2) & X3 & X4); (split; [lra|]); exists x; repeat split; lra.
Qed.
Lemma touches_mod_beq d a a' b : beq a a' -> touches_mod d a b -> touches_mod d a' b.
Proof. intros A (z & T). exists z. eapply touches_beq; [exact A| |exact T]. repeat split; reflexivity. Qed.
Lemma beq_sym a b : beq a b -> beq b a.
Proof. unfold beq. intros (? & ? & ? & ?). repeat split; lra. Qed.
Lemma quarter_beq q a k k' : quarter q a k -> quarter q a k' -> beq k k'.
Proof. unfold quarter, beq. destruct q; cbn; intros; repeat split; lra. Qed.

Section Step.
Variable m : emesh.
Variable c : ecell.
Hypothesis Inv : cells_inv m.
Hypothesis Wide : forall x, In x (em_cells m) -> (long_max (e_bounds x) - long_min (e_bounds x) < 180)%Q.
Hypothesis Hc : In c (em_cells m).
Variable kc : quad -> ecell.
Hypothesis Hk : kid_spec m c kc.
Variable f : Z -> Z -> list Z.
Let cs := em_cells m.
Let cs' := cs ++ map kc equads.
Let bx' := ebx cs'.
Let L := elive cs.
Let kid := ekid m.
Let AL := all_live kid L.
Let NL := new_live (e_id c) kid L.
Hypothesis Rf : rep KS (em_graph m) L f.
Hypothesis Ef : exact_for L (icase true (ebx cs)) f.

Lemma kid_wide q : (long_max (e_bounds (kc q)) - long_min (e_bounds (kc q)) < 180)%Q.
Proof.
  destruct (Hk q) as (_ & (Q & _) & Pk). pose proof (proj1 (proj2 Inv) c Hc) as Pc.
  pose proof (plane_region _ Pk) as (X0 & X1 & _). pose proof (plane_region _ Pc) as (Y0 & Y1 & _).
  pose proof (Wide c Hc). destruct Pc as ((Pc & _) & _).
  unfold quarter, xmid in Q. destruct q; cbn -[region] in Q; rewrite X0, X1, Y0, Y1 in Q; lra.
Qed.
Lemma wide' x : In x cs' -> cell_ok true (e_bounds x).
Proof.
  intros H. apply wide_ok; [apply (cs'_plane m c Inv kc Hk); auto|]. apply in_app_or in H as [H|H]; [apply Wide; auto|].
  apply in_map_iff in H as (q & <- & _). apply kid_wide.
Qed.
Lemma gAL_ok j : AL j -> cell_ok true (bx' j).
Proof. intros H. destruct (AL_cell m c Inv kc Hk j H) as (x & Hx & _ & E). unfold bx', cs', cs. rewrite E. apply wide'; auto. Qed.
Lemma gAL_plain j : AL j -> cell_ok false (bx' j).
Proof. intros H. apply (eAL_ok m c Inv kc Hk j H). Qed.
Lemma gL_sep j k : L j -> L k -> j <> k -> sep (region (bx' j)) (region (bx' k)).
Proof. intros. apply (eL_sep m c Inv kc Hk); auto. Qed.
Lemma Ef' : exact_for L (icase true bx') f.
Proof.
  eapply exact_for_ext; [| |exact Ef]; [tauto|]. intros j k Hj Hkk. unfold icase, bx', cs'. rewrite !(ebx'_old m c Inv kc Hk); auto.
Qed.
Lemma gLc : L (e_id c). Proof. apply elive_in; auto. Qed.
Lemma L_AL j : L j -> AL j. Proof. left; auto. Qed.
Lemma kid_AL q : AL (kid q). Proof. right; eauto. Qed.
Hint Resolve gLc L_AL kid_AL : core.
Lemma gL_ok j : L j -> cell_ok true (bx' j). Proof. intros; apply gAL_ok; auto. Qed.

Definition kidp (j : Z) : bool := (j =? kid qNW) || (j =? kid qNE) || (j =? kid qSW) || (j =? kid qSE).
Lemma kidp_kid q : kidp (kid q) = true.
Proof. unfold kidp. destruct q; rewrite Z.eqb_refl, ?orb_true_r; reflexivity. Qed.
Lemma kidp_old j : L j -> kidp j = false.
Proof.
  intros H. unfold kidp. assert (X : forall q, j =? kid q = false).
  { intros q. apply Z.eqb_neq. intros ->. exact (ekid_new m q H). }
  rewrite !X. reflexivity.
Qed.
(** The contacts the code sees: without moving cells, between quarters and old cells. *)
Definition gseen (a b : Z) : Z := if xorb (kidp a) (kidp b) then icase false bx' a b else icase true bx' a b.

Lemma at_bx j : AL j -> at_id cs' bx' j.
Proof.
  intros Hj. destruct (AL_cell m c Inv kc Hk j Hj) as (x & Hx & <- & Eb). exists x.
  split; [apply get_cellbox_id; [apply (cs'_NoDup m c Inv kc Hk)|exact Hx]|symmetry; exact Eb].
Qed.
Lemma anti_true a b : AL a -> AL b -> icase true bx' b a = - icase true bx' a b.
Proof. apply (fam_anti true AL bx' gAL_ok). Qed.
Lemma anti_false a b : AL a -> AL b -> icase false bx' b a = - icase false bx' a b.
Proof. apply (fam_anti false AL bx' gAL_plain). Qed.
Lemma irr_true a : AL a -> icase true bx' a a = 0.
Proof. apply (fam_irr true AL bx' gAL_ok). Qed.
Lemma uniq_true a b e d : L a -> L b -> L e -> is_corner d = true -> icase true bx' a b = code d -> icase true bx' a e = code d -> b = e.
Proof. apply (fam_uniq true L bx' gL_ok gL_sep). Qed.
Lemma f_live s j : In j (f (e_id c) (code s)) -> L j.
Proof. intros H. eapply (Ef' (e_id c) (code s)); [auto|apply In_dirs_code; eauto|exact H]. Qed.

Lemma gseen_split : exists g', esplit_graph cs' (em_graph m) (KS (e_id c)) (kid qNW) (kid qNE) (kid qSW) (kid qSE) = Ok g' /\
  rep KS g' NL (final gseen (e_id c) kid env_pair f).
Proof.
  assert (old : forall a b, L a -> L b -> gseen a b = icase true bx' a b).
  { intros a b A B. unfold gseen. rewrite !kidp_old by auto. reflexivity. }
  apply (esplit_graph_case_ok cs' bx' gseen L f (e_id c) kid).
  - auto.
  - apply ekid_new.
  - apply ekid_inj.
  - intros a b A B. unfold gseen. rewrite xorb_comm. destruct (xorb _ _); [apply anti_false|apply anti_true]; auto.
  - intros a A. unfold gseen. rewrite xorb_nilpotent. apply irr_true; auto.
  - intros a b e d A B E C. rewrite !old by auto. apply uniq_true; auto.
  - eapply exact_for_ext; [| |exact Ef']; [tauto|]. intros; symmetry; apply old; auto.
  - intros a b. unfold gseen. destruct (xorb _ _); apply icase_range.
  - intros q s j Cs Hj. pose proof (f_live s j Hj). unfold gseen. rewrite kidp_kid, kidp_old by auto. split; reflexivity.
  - apply at_bx.
  - exact Rf.
Qed.

Lemma bx'_kid q : bx' (kid q) = e_bounds (kc q).
Proof. apply (ebx'_kid m c Inv kc Hk). Qed.
Lemma bx'_cell x : In x cs -> bx' (e_id x) = e_bounds x.
Proof. intros H. apply ebx_id; [apply (cs'_NoDup m c Inv kc Hk)|apply in_or_app; auto]. Qed.
Lemma kid_quarter q : quarter q (region (bx' (e_id c))) (region (bx' (kid q))).
Proof. apply (ekid_quarter m c Inv Hc kc Hk). Qed.

Lemma trueT a b d : AL a -> AL b -> (icase true bx' a b = code d <-> touches_mod d (region (bx' a)) (region (bx' b))).
Proof.
  intros A B. unfold icase. rewrite case_contact by (apply gAL_ok; auto).
  symmetry. apply (adjacency_contact true); apply (cell_ok_box true); apply gAL_ok; auto.
Qed.
Lemma falseT a b d : AL a -> AL b -> (icase false bx' a b = code d <-> touches d (region (bx' a)) (region (bx' b))).
Proof.
  intros A B. unfold icase. rewrite case_contact by (apply gAL_plain; auto).
  symmetry. apply (adjacency_contact false); apply (cell_ok_box false); apply gAL_plain; auto.
Qed.
Lemma touches_both d a b : touches d a b -> touches_mod d a b.
Proof.
  intros T. exists 0. change (inject_Z 0) with 0%Q. eapply touches_beq; [| |exact T]; repeat split; cbn; lra.
Qed.

Lemma plain_agree : plain_quarters m c -> forall q s j, is_corner s = false -> In j (f (e_id c) (code s)) ->
  icase false bx' (kid q) j = icase true bx' (kid q) j.
Proof.
  intros QP q s j Cs Hj. pose proof (f_live s j Hj) as Lj.
  apply Ef' in Hj as [_ Ej]; [|auto|apply In_dirs_code; eauto].
  assert (Hs : touches_mod s (region (bx' (e_id c))) (region (bx' j))) by (apply trueT; auto).
  pose proof Lj as Lj'. apply elive_inv in Lj' as (x & Hx & Ex).
  assert (Sd : side s) by (unfold side; destruct s; try discriminate; auto).
  assert (X : forall d, icase false bx' (kid q) j = code d <-> icase true bx' (kid q) j = code d).
  { intros d. split; intros Ed.
    - apply trueT; auto. apply falseT in Ed; auto. apply touches_both; auto.
    - apply falseT; auto. apply trueT in Ed; auto. rewrite <- Ex in *. rewrite (bx'_cell x Hx) in *. rewrite (bx'_cell c Hc) in Hs.
      eapply (QP q _ x s d Hx); eauto. rewrite <- (bx'_cell c Hc). apply kid_quarter. }
  destruct (icase_range false bx' (kid q) j) as [E0|[d E0]].
  - destruct (icase_range true bx' (kid q) j) as [E1|[d E1]]; [congruence|].
    apply X in E1. rewrite E0 in E1. symmetry in E1. destruct (code_nonzero _ E1).
  - rewrite E0. symmetry. apply X; auto.
Qed.

Let m' (g' : graph) : emesh := mkEM (em_bounds m) (remove_first (e_id c) cs') g' (em_config m).
Lemma m'_wide g' x : In x (em_cells (m' g')) -> cell_ok true (e_bounds x).
Proof.
  intros H. apply wide'. cbn in H. apply remove_first_in in H as [H _]; auto; [apply (cs'_NoDup m c Inv kc Hk)|apply in_or_app; auto].
Qed.

Lemma plain_exact : plain_quarters m c -> forall g',
  esplit_graph cs' (em_graph m) (KS (e_id c)) (kid qNW) (kid qNE) (kid qSW) (kid qSE) = Ok g' ->
  lists_contacts touches_mod (em_cells (m' g')) g'.
Proof.
  intros QP g' Eg.
  destruct (esplit_graph_case_ok cs' bx' (icase true bx') L f (e_id c) kid gLc (ekid_new m) (ekid_inj m) anti_true irr_true uniq_true Ef' (icase_range true bx'))
    with (g := em_graph m) as (g2 & Eg2 & Rg); auto.
  - intros q s j Cs Hj. pose proof (f_live s j Hj). split; [eapply plain_agree; eauto|].
    rewrite (anti_false (kid q) j), (anti_true (kid q) j) by auto. f_equal. eapply plain_agree; eauto.
  - apply at_bx.
  - rewrite Eg in Eg2. injection Eg2 as <-.
    destruct (esplit_cells m c Inv Hc kc Hk g') as ((N' & _) & _).
    apply (contacts_rep_of true touches_mod _ g' (final (icase true bx') (e_id c) kid env_pair f)).
    + exact N'.
    + apply case_touches_mod. intros x. apply (m'_wide g').
    + eapply rep_ext; [| |exact Rg]; auto. intros j. apply (eNL_live m c Inv Hc kc Hk).
    + apply (exact_for_ext NL _ (icase true bx')).
      * intros j. apply (eNL_live m c Inv Hc kc Hk).
      * intros j k Hj Hkk. unfold icase. cbn [m' em_cells]. unfold cs', cs. rewrite !(ebx''_eq m c Inv Hc kc Hk) by auto. reflexivity.
      * apply final_exact; auto.
        -- apply env_pair_ok.
        -- apply ekid_new.
        -- apply ekid_inj.
        -- apply icase_range.
        -- apply anti_true.
        -- apply irr_true.
        -- intros q j d Hj Nj Ed.
           apply (fam_case true AL bx' gAL_ok) in Ed; auto.
           destruct (contact_up true q d (region (bx' (e_id c))) (region (bx' (kid q))) (region (bx' j))) as (d' & U & C'); auto.
           ++ apply (fam_circle true L bx' gL_ok); auto.
           ++ apply (fam_circle true L bx' gL_ok); auto.
           ++ apply kid_quarter.
           ++ apply gL_sep; auto.
           ++ exists d'. split; auto. apply (fam_case true L bx' gL_ok); auto.
        -- intros q j Hj Nj Ed. apply (fam_case true L bx' gL_ok) in Ed; auto.
           apply (fam_case true AL bx' gAL_ok); auto.
           eapply contact_corner; eauto.
           ++ apply (fam_proper true L bx' gL_ok); auto.
           ++ apply kid_quarter.
        -- intros q q' d S. apply (fam_case true AL bx' gAL_ok); auto.
           eapply contact_sibling; eauto using kid_quarter.
           apply (fam_proper true L bx' gL_ok); auto.
        -- apply uniq_true.
        -- apply Ef'.
Qed.

Lemma exact_plain g' :
  esplit_graph cs' (em_graph m) (KS (e_id c)) (kid qNW) (kid qNE) (kid qSW) (kid qSE) = Ok g' ->
  lists_contacts touches_mod (em_cells (m' g')) g' -> plain_quarters m c.
Proof.
  intros Eg (_ & _ & G3 & _) q k x d d' Hx Qk Sd Td Td'.
  destruct gseen_split as (g2 & Eg2 & R2). rewrite Eg in Eg2. injection Eg2 as <-.
  assert (Lx : L (e_id x)) by (apply elive_in; auto).
  assert (Ed : icase true bx' (e_id c) (e_id x) = code d).
  { apply trueT; auto. rewrite !bx'_cell by auto. auto. }
  assert (Ni : e_id x <> e_id c).
  { intros E. rewrite E, irr_true in Ed by auto. symmetry in Ed. destruct (code_nonzero _ Ed). }
  pose proof (cs'_NoDup m c Inv kc Hk) as Nd.
  assert (Hc' : In c cs') by (apply in_or_app; auto).
  assert (Ik : In (kc q) (em_cells (m' g'))).
  { apply (proj2 (remove_first_in cs' c (kc q) Nd Hc')). split; [apply in_or_app; right; apply in_map, (In_equads m)|].
    intros E. apply (ekid_new m q). rewrite <- (proj1 (Hk q)), E. exact gLc. }
  assert (Ix : In x (em_cells (m' g'))).
  { apply (proj2 (remove_first_in cs' c x Nd Hc')). split; [apply in_or_app; auto|auto]. }
  assert (Eq : beq k (region (e_bounds (kc q)))).
  { pose proof (kid_quarter q) as Q'. rewrite (bx'_cell c Hc), bx'_kid in Q'. eapply quarter_beq; eauto. }
  apply (touches_beq d' (region (e_bounds (kc q))) k (region (e_bounds x)) (region (e_bounds x)) (beq_sym _ _ Eq)); [repeat split; reflexivity|].
  apply (touches_mod_beq d' _ _ _ Eq) in Td'.
  destruct (G3 (kc q) d' Ik) as (l & El & _ & X).
  assert (Inl : In (e_id x) l) by (apply X; eauto).
  rewrite (proj1 (Hk q)) in El. cbn [em_graph m'] in El.
  rewrite (rep_get KS _ _ _ _ _ R2) in El by (solve [right; eauto | apply In_dirs_code; eauto]).
  injection El as <-. rewrite (final_kid gseen (e_id c) kid env_pair f (ekid_inj m)) in Inl. unfold kid_list in Inl.
  destruct (sib_at q d') as [q'|].
  { destruct Inl as [E|[]]. exfalso. rewrite <- E in Lx. exact (ekid_new m _ Lx). }
  destruct (up q d') as [s|]; [|destruct Inl].
  destruct (is_corner s) eqn:Cs.
  - apply Ef' in Inl as [_ Es]; [|auto|apply In_dirs_code; eauto]. rewrite Ed in Es. apply code_inj in Es. subst s.
    destruct Sd as [-> | [-> | [-> | ->]]]; discriminate.
  - apply filter_In in Inl as [_ Es]. apply Z.eqb_eq in Es. unfold gseen in Es.
    rewrite kidp_kid, kidp_old in Es by auto. cbn [xorb] in Es. apply falseT in Es; auto.
    rewrite bx'_kid, (bx'_cell x Hx) in Es. exact Es.
Qed.
End Step.

Theorem globe_split m c : sound_globe m -> In c (em_cells m) ->
  exists m', esplit_and_replace m (KS (e_id c)) = Ok m' /\ replaced m c m' /\ em_bounds m' = em_bounds m /\ em_config m' = em_config m /\
    NoDup (map e_id (em_cells m')) /\ cells_apart (em_cells m') /\
    (forall x, In x (em_cells m') -> plane_bounds (e_bounds x) /\ (long_max (e_bounds x) - long_min (e_bounds x) < 180)%Q) /\
    (lists_contacts touches_mod (em_cells m') (em_graph m') <-> plain_quarters m c).
Proof.
  intros (N & P & A & G) Hc.
  assert (Inv : cells_inv m).
  { split; [exact N|]. split; [intros x Hx; apply P; auto|]. apply apart_sep; auto. intros x Hx; apply P; auto. }
  assert (Wide : forall x, In x (em_cells m) -> (long_max (e_bounds x) - long_min (e_bounds x) < 180)%Q) by (intros; apply P; auto).
  assert (Ok1 : forall x, In x (em_cells m) -> cell_ok true (e_bounds x)) by (intros x Hx; apply wide_ok; apply P; auto).
  destruct (contacts_inv_of true touches_mod _ _ N (case_touches_mod _ Ok1) G) as (f & R & E).
  destruct (sim_split_ok m c Inv Hc) as (kc & Es & Hk).
  destruct (gseen_split m c Inv Wide Hc kc Hk f R E) as (g' & Eg & _).
  destruct (esplit_cells m c Inv Hc kc Hk g') as ((J1 & J2 & J3) & Rp).
  eexists. split; [apply (esplit_computes m c kc g' Es Eg)|]. split; [exact Rp|]. split; [reflexivity|]. split; [reflexivity|].
  split; [exact J1|]. split; [apply apart_sep; auto|]. split.
  - intros x Hx. split; [apply J2; auto|]. pose proof (m'_wide m c Inv Wide Hc kc Hk g' x Hx) as (_ & _ & _ & W). auto.
  - split.
    + apply (exact_plain m c Inv Wide Hc kc Hk f R E g' Eg).
    + intros QP. apply (plain_exact m c Inv Wide Hc kc Hk f R E QP g' Eg).
Qed.
