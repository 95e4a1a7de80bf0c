(** Any splits of a loaded mesh around the globe: they do not raise, the graph never lists
    a cell that does not touch, and keeps every contact that needs no move by 360 degrees. *)
From Verif Require Import Base Geo Graph Cell Builder Env Spec MeshSpec EnvSpec CrossSpec CrossPipeSpec EnvGlobeSpec QLib CaseProofs SplitGeo Dict Rep SplitCore Stage BuilderSplit
  Invariant Consequences EnvSplit EnvInv EnvMerge EnvLink EnvGlobe EnvGlobeProofs.
Open Scope Z_scope.

Definition side_code (z : Z) : bool := (z =? code dN) || (z =? code dE) || (z =? code dS) || (z =? code dW).
Lemma side_code_code d : side_code (code d) = negb (is_corner d).
Proof. destruct d; reflexivity. Qed.
Lemma up_corner q d s : up q d = Some s -> is_corner s = true -> s = corner_of q /\ d = s.
Proof. destruct q, d; cbn; intros E C; try discriminate E; injection E as <-; try discriminate C; split; reflexivity. Qed.

Definition globe_graph (cs : list ecell) (g : graph) : Prop :=
  exists s f, rep KS g (elive cs) f /\ exact_for (elive cs) s f /\
    (forall a b, elive cs a -> elive cs b -> s b a = - s a b) /\
    (forall a b, s a b = 0 \/ exists d, s a b = code d) /\
    (forall a b, elive cs a -> elive cs b -> s a b = 0 \/ s a b = icase true (ebx cs) a b) /\
    (forall a b d, elive cs a -> elive cs b -> icase false (ebx cs) a b = code d -> s a b = code d).
Definition globe_inv (m : emesh) : Prop :=
  cells_inv m /\ (forall x, In x (em_cells m) -> (long_max (e_bounds x) - long_min (e_bounds x) < 180)%Q) /\
  globe_graph (em_cells m) (em_graph m).

Section Sound.
Variable m : emesh.
Variable c : ecell.
Hypothesis Inv : cells_inv m.
Hypothesis Wide : forall x, In x (em_cells m) -> (long_max (e_bounds x) - long_min (e_bounds x) < 180)%Q.
Hypothesis Hc : In c (em_cells m).
Variable kc : quad -> ecell.
Hypothesis Hk : kid_spec m c kc.
Let cs := em_cells m.
Let cs' := (cs ++ map kc equads)%list.
Let bx' := ebx cs'.
Let L := elive cs.
Let kid := ekid m.
Let AL := all_live kid L.
Let NL := new_live (e_id c) kid L.
Let ci := e_id c.
Variable s : Z -> Z -> Z.
Variable f : Z -> Z -> list Z.
Hypothesis Rf : rep KS (em_graph m) L f.
Hypothesis Ef : exact_for L s f.
Hypothesis Santi : forall a b, L a -> L b -> s b a = - s a b.
Hypothesis Srange : forall a b, s a b = 0 \/ exists d, s a b = code d.
Hypothesis Strue : forall a b, L a -> L b -> s a b = 0 \/ s a b = icase true (ebx cs) a b.
Hypothesis Splain : forall a b d, L a -> L b -> icase false (ebx cs) a b = code d -> s a b = code d.

Let kidb := kidp m.
Lemma Lci : L ci. Proof. apply elive_in; auto. Qed.
Lemma L_AL' j : L j -> AL j. Proof. left; auto. Qed.
Lemma kid_AL' q : AL (kid q). Proof. right; eauto. Qed.
Hint Resolve Lci L_AL' kid_AL' : core.
Lemma okAL j : AL j -> cell_ok true (bx' j). Proof. apply (gAL_ok m c Inv Wide Hc kc Hk). Qed.
Lemma okALf j : AL j -> cell_ok false (bx' j). Proof. apply (gAL_plain m c Inv kc Hk). Qed.
Lemma okL j : L j -> cell_ok true (bx' j). Proof. intros; apply okAL; auto. Qed.
Lemma okLf j : L j -> cell_ok false (bx' j). Proof. intros; apply okALf; auto. Qed.
Lemma sepL j k : L j -> L k -> j <> k -> sep (region (bx' j)) (region (bx' k)).
Proof. apply (gL_sep m c Inv kc Hk). Qed.
Lemma kidb_kid q : kidb (kid q) = true. Proof. apply kidp_kid. Qed.
Lemma kidb_old j : L j -> kidb j = false. Proof. apply kidp_old. Qed.
Lemma tT a b d : AL a -> AL b -> (icase true bx' a b = code d <-> touches_mod d (region (bx' a)) (region (bx' b))).
Proof. apply (trueT m c Inv Wide Hc kc Hk). Qed.
Lemma fT a b d : AL a -> AL b -> (icase false bx' a b = code d <-> touches d (region (bx' a)) (region (bx' b))).
Proof. apply (falseT m c Inv kc Hk). Qed.
Lemma bx'_old j : L j -> bx' j = ebx cs j. Proof. apply (ebx'_old m c Inv kc Hk). Qed.
Lemma quarter_kid q : quarter q (region (bx' ci)) (region (bx' (kid q))).
Proof. apply (ekid_quarter m c Inv Hc kc Hk). Qed.

Lemma plain_true a b d : AL a -> AL b -> icase false bx' a b = code d -> icase true bx' a b = code d.
Proof. intros A B E. apply fT in E; auto. apply tT; auto. apply touches_both; auto. Qed.

Definition ccode (a : Z) : Z :=
  if a =? kid qNW then code dNW else if a =? kid qNE then code dNE
  else if a =? kid qSW then code dSW else code dSE.
Lemma ccode_kid q : ccode (kid q) = code (corner_of q).
Proof. unfold ccode. rewrite !(kid_eqb kid (ekid_inj m)). destruct q; reflexivity. Qed.
(** What a quarter [a] lists of an old cell [b]. *)
Definition glists (a b : Z) : Z :=
  if side_code (s ci b) then icase false bx' a b
  else if s ci b =? ccode a then ccode a else 0.
Definition glists' (a b : Z) : Z :=
  if kidb a then if kidb b then icase true bx' a b else glists a b
  else if kidb b then - glists b a else s a b.

Lemma glists_range a b : glists a b = 0 \/ exists d, glists a b = code d.
Proof.
  unfold glists. destruct (side_code _); [apply icase_range|]. destruct (s ci b =? ccode a) eqn:E; auto.
  apply Z.eqb_eq in E. rewrite <- E. apply Srange.
Qed.
Lemma glists'_range a b : glists' a b = 0 \/ exists d, glists' a b = code d.
Proof.
  unfold glists'. destruct (kidb a), (kidb b); [apply icase_range|apply glists_range| |apply Srange].
  destruct (glists_range b a) as [->|[d ->]]; auto. right. exists (opposite d). symmetry. apply code_opposite.
Qed.
Lemma kidb_false a : AL a -> kidb a = false -> L a.
Proof. intros [A|[q ->]] K; [auto|rewrite kidb_kid in K; discriminate]. Qed.
Lemma glists'_anti a b : AL a -> AL b -> glists' b a = - glists' a b.
Proof.
  intros A B. unfold glists'. destruct (kidb a) eqn:Ka, (kidb b) eqn:Kb.
  - apply (fam_anti true AL bx' okAL); auto.
  - reflexivity.
  - lia.
  - apply Santi; apply kidb_false; auto.
Qed.
Lemma Strue' a b : L a -> L b -> s a b = 0 \/ s a b = icase true bx' a b.
Proof. intros A B. unfold icase. rewrite !bx'_old by auto. apply Strue; auto. Qed.
Lemma Splain' a b d : L a -> L b -> icase false bx' a b = code d -> s a b = code d.
Proof. intros A B. unfold icase. rewrite !bx'_old by auto. apply Splain; auto. Qed.
Lemma s_code a b d : L a -> L b -> s a b = code d -> icase true bx' a b = code d.
Proof. intros A B E. destruct (Strue' a b A B) as [Z|Z]; [rewrite E in Z; destruct (code_nonzero _ Z)|congruence]. Qed.
Lemma raw_true q b : L b -> icase false bx' (kid q) b = 0 \/ icase false bx' (kid q) b = icase true bx' (kid q) b.
Proof.
  intros B. destruct (icase_range false bx' (kid q) b) as [E|[d E]]; auto. right. rewrite E. symmetry. apply plain_true; auto.
Qed.
Lemma glists_true q b : L b -> glists (kid q) b = 0 \/ glists (kid q) b = icase true bx' (kid q) b.
Proof.
  intros B. unfold glists. destruct (side_code _) eqn:S; [apply raw_true; auto|]. rewrite ccode_kid.
  destruct (Z.eqb_spec (s ci b) (code (corner_of q))) as [E|]; auto. right. symmetry.
  apply s_code in E; auto. apply (fam_case true L bx' okL) in E; auto. apply (fam_case true AL bx' okAL); auto.
  eapply contact_corner; eauto.
  - apply (fam_proper true L bx' okL); auto.
  - apply quarter_kid.
Qed.
Lemma glists'_true a b : AL a -> AL b -> glists' a b = 0 \/ glists' a b = icase true bx' a b.
Proof.
  intros A B. unfold glists'. destruct A as [A|[q ->]]; destruct B as [B|[q' ->]]; rewrite ?kidb_kid, ?kidb_old by auto.
  - apply Strue'; auto.
  - destruct (glists_true q' a A) as [->| ->]; auto. right.
    symmetry. apply (fam_anti true AL bx' okAL); auto.
  - apply glists_true; auto.
  - auto.
Qed.
Lemma glists_plain q b d : L b -> b <> ci -> icase false bx' (kid q) b = code d -> glists (kid q) b = code d.
Proof.
  intros B N E. pose proof E as Ed. apply (fam_case false AL bx' okALf) in Ed; auto.
  destruct (contact_up false q d (region (bx' ci)) (region (bx' (kid q))) (region (bx' b))) as (d' & U & C'); auto.
  - apply (fam_circle false L bx' okLf); auto.
  - apply (fam_circle false L bx' okLf); auto.
  - apply quarter_kid.
  - apply sepL; auto.
  - apply (fam_case false L bx' okLf) in C'; auto. apply Splain' in C'; auto.
    unfold glists. rewrite C', side_code_code. destruct (is_corner d') eqn:Cd; cbn [negb]; [|exact E].
    destruct (up_corner _ _ _ U Cd) as (-> & ->). rewrite ccode_kid, Z.eqb_refl. reflexivity.
Qed.
Lemma glists'_plain a b d : AL a -> AL b -> a <> ci -> b <> ci -> icase false bx' a b = code d -> glists' a b = code d.
Proof.
  intros A B Na Nb E. unfold glists'. destruct A as [A|[q ->]]; destruct B as [B|[q' ->]]; rewrite ?kidb_kid, ?kidb_old by auto.
  - apply Splain'; auto.
  - assert (E' : icase false bx' (kid q') a = code (opposite d)).
    { rewrite (fam_anti false AL bx' okALf a (kid q')) by auto. rewrite E. symmetry. apply code_opposite. }
    apply glists_plain in E'; auto. rewrite E', code_opposite. lia.
  - apply glists_plain; auto.
  - apply plain_true; auto.
Qed.
Lemma glists'_old a b : L a -> L b -> glists' a b = s a b.
Proof. intros A B. unfold glists'. rewrite !kidb_old by auto. reflexivity. Qed.
Lemma glists'_exact : exact_for L glists' f.
Proof. eapply exact_for_ext; [| |exact Ef]; [tauto|]. intros; symmetry; apply glists'_old; auto. Qed.
Lemma glists'_irr a : AL a -> glists' a a = 0.
Proof.
  intros A. destruct (glists'_true a a A A) as [E|E]; auto. rewrite E. apply (fam_irr true AL bx' okAL); auto.
Qed.
Lemma glists'_uniq a b e d : L a -> L b -> L e -> is_corner d = true ->
  glists' a b = code d -> glists' a e = code d -> b = e.
Proof.
  intros A B E C X Y. rewrite glists'_old in X, Y by auto. apply s_code in X, Y; auto.
  exact (fam_uniq true L bx' okL sepL a b e d A B E C X Y).
Qed.

Lemma globe_step : exists g', esplit_graph cs' (em_graph m) (KS ci) (kid qNW) (kid qNE) (kid qSW) (kid qSE) = Ok g' /\
  globe_graph (remove_first ci cs') g'.
Proof.
  destruct (esplit_graph_case_ok cs' bx' glists' L f ci kid Lci (ekid_new m) (ekid_inj m)
     glists'_anti glists'_irr glists'_uniq glists'_exact glists'_range) with (g := em_graph m) as (g2 & Eg2 & Rg); auto.
  - intros q d j Cs Hj. apply Ef in Hj as [Lj Ej]; [|auto|apply In_dirs_code; eauto].
    assert (K : glists' (kid q) j = icase false bx' (kid q) j).
    { unfold glists'. rewrite kidb_kid, kidb_old by auto. unfold glists. rewrite Ej, side_code_code, Cs. reflexivity. }
    split; [symmetry; exact K|]. rewrite (fam_anti false AL bx' okALf (kid q) j), (glists'_anti (kid q) j) by auto. congruence.
  - apply (at_bx m c Inv kc Hk).
  - exists g2. split; auto.
    assert (NLl : forall j, NL j <-> elive (remove_first ci cs') j) by (intros j; apply (eNL_live m c Inv Hc kc Hk)).
    assert (NLA : forall j, elive (remove_first ci cs') j -> AL j /\ j <> ci).
    { intros j Hj. apply NLl in Hj as [[Hj N]|[q ->]]; split; auto. intros E. apply (ekid_new m q). fold kid. rewrite E. exact Lci. }
    assert (Bx : forall gl a b, elive (remove_first ci cs') a -> elive (remove_first ci cs') b -> icase gl (ebx (remove_first ci cs')) a b = icase gl bx' a b).
    { intros gl a b A B. apply NLl in A, B. unfold icase, ci, cs', cs. rewrite !(ebx''_eq m c Inv Hc kc Hk) by auto. reflexivity. }
    exists glists', (final glists' ci kid env_pair f). split; [|split; [|split; [|split; [|split]]]].
    + eapply rep_ext; [| |exact Rg]; auto.
    + apply (exact_for_ext NL _ glists'); [auto|auto|].
      apply final_exact; auto.
      * apply env_pair_ok.
      * apply ekid_new.
      * apply ekid_inj.
      * apply glists'_range.
      * apply glists'_anti.
      * apply glists'_irr.
      * intros q j d Hj Nj Ed. rewrite glists'_old by auto.
        assert (Eu : icase true bx' (kid q) j = code d).
        { destruct (glists'_true (kid q) j) as [Z|Z]; auto; [rewrite Ed in Z; destruct (code_nonzero _ Z)|congruence]. }
        apply (fam_case true AL bx' okAL) in Eu; auto.
        destruct (contact_up true q d (region (bx' ci)) (region (bx' (kid q))) (region (bx' j))) as (d' & U & C'); auto.
        -- apply (fam_circle true L bx' okL). auto.
        -- apply (fam_circle true L bx' okL). auto.
        -- apply quarter_kid.
        -- apply sepL; auto.
        -- exists d'. split; auto. apply (fam_case true L bx' okL) in C'; auto.
           destruct (Strue' ci j Lci Hj) as [Z|Z]; [|congruence]. exfalso.
           unfold glists' in Ed. rewrite kidb_kid, kidb_old in Ed by auto. unfold glists in Ed. rewrite Z in Ed.
           change (side_code 0) with false in Ed. cbv iota in Ed. rewrite ccode_kid in Ed.
           destruct (Z.eqb_spec 0 (code (corner_of q))) as [Q|_]; [symmetry in Q; destruct (code_nonzero _ Q)|].
           symmetry in Ed. destruct (code_nonzero _ Ed).
      * intros q j Hj Nj Ed. rewrite glists'_old in Ed by auto.
        unfold glists'. rewrite kidb_kid, kidb_old by auto. unfold glists. rewrite Ed, side_code_code, ccode_kid, Z.eqb_refl.
        destruct q; reflexivity.
      * intros q q' d S. unfold glists'. rewrite !kidb_kid. apply (fam_case true AL bx' okAL); auto.
        eapply contact_sibling; eauto using quarter_kid. apply (fam_proper true L bx' okL); auto.
      * apply glists'_uniq.
      * apply glists'_exact.
    + intros a b A B. apply glists'_anti; apply NLA; auto.
    + apply glists'_range.
    + intros a b A B. rewrite Bx by auto. apply glists'_true; apply NLA; auto.
    + intros a b d A B. rewrite Bx by auto. apply glists'_plain; apply NLA; auto.
Qed.
End Sound.

Lemma globe_inv_of m : sound_globe m -> globe_inv m.
Proof.
  intros S. pose proof (globe_cells_inv m S) as Inv. destruct S as (N & P & A & G). split; [exact Inv|].
  split; [intros; apply P; auto|].
  assert (Ok1 : forall x, In x (em_cells m) -> cell_ok true (e_bounds x)) by (intros x Hx; apply wide_ok; apply P; auto).
  assert (OkL : forall gl j, elive (em_cells m) j -> cell_ok gl (ebx (em_cells m) j)).
  { intros gl j Hj. apply elive_inv in Hj as (x & Hx & <-). rewrite ebx_id by auto. destruct gl; [auto|apply plane_ok, P; auto]. }
  destruct (contacts_inv_of true touches_mod _ _ N (case_touches_mod _ Ok1) G) as (f & R & E).
  exists (icase true (ebx (em_cells m))), f. split; [exact R|]. split; [exact E|]. split; [apply (fam_anti true _ _ (OkL true))|].
  split; [apply icase_range|]. split; [auto|].
  intros a b d Ha Hb Ed. unfold icase in *. rewrite case_contact in Ed by (apply (OkL false); auto).
  rewrite case_contact by (apply (OkL true); auto).
  apply (adjacency_contact true); [apply (cell_ok_box true), (OkL true); auto..|].
  apply (adjacency_contact false) in Ed; [|apply (cell_ok_box false), (OkL false); auto..]. apply touches_both; auto.
Qed.

Lemma globe_inv_lists m : globe_inv m -> lists_only_contacts touches_mod (em_cells m) (em_graph m) /\ lists_plain (em_cells m) (em_graph m).
Proof.
  intros ((N & P & A) & W & s & f & R & E & An & Rg & Tr & Pl). pose proof R as (R1 & R2 & R3).
  assert (Hd : forall d, In (code d) dirs) by (intros; apply In_dirs_code; eauto).
  split; [split; [|split; [|split]]; auto|].
  - intros k. rewrite R2. split.
    + intros (i & -> & H). apply elive_inv in H as (c & Hc & <-). eauto.
    + intros (c & -> & H). exists (e_id c). split; auto. apply elive_in; auto.
  - intros c d Hc. pose proof (elive_in _ _ Hc) as Lc. exists (f (e_id c) (code d)).
    split; [apply (rep_get KS _ _ _ _ _ R); auto|]. destruct (E _ _ Lc (Hd d)) as [Nf If]. split; auto.
    intros z Hz. apply If in Hz as [Lz Ez]. pose proof Lz as Lz'. apply elive_inv in Lz' as (c' & Hc' & <-).
    exists c', (f (e_id c') (code (opposite d))). split; auto. split; auto. split; [|split].
    + apply (case_touches_mod (em_cells m)); auto.
      { intros x Hx. apply wide_ok; auto. }
      destruct (Tr _ _ Lc Lz) as [Z|Z]; [rewrite Ez in Z; destruct (code_nonzero _ Z)|].
      unfold icase in Z. rewrite !ebx_id in Z by auto. congruence.
    + apply (rep_get KS _ _ _ _ _ R); auto.
    + apply (E _ _ Lz (Hd _)). split; auto. rewrite (An (e_id c) (e_id c')) by auto. rewrite Ez, code_opposite. reflexivity.
  - intros c mp Hc Em. destruct (R3 (e_id c)) as (m' & Em' & M1 & M2 & _); [apply elive_in; auto|].
    rewrite Em in Em'. injection Em' as <-. split; auto. intros k. rewrite M2. split.
    + intros (d & -> & Hd'). apply In_dirs_code in Hd' as (dd & ->). eauto.
    + intros (dd & ->). exists (code dd). split; auto.
  - intros c c' d l Hc Hc' T El. pose proof (elive_in _ _ Hc) as Lc. pose proof (elive_in _ _ Hc') as Lc'.
    rewrite (rep_get KS _ _ _ _ _ R) in El by auto. injection El as <-. apply (E _ _ Lc (Hd d)). split; auto.
    apply Pl; auto. unfold icase. rewrite !ebx_id by auto. rewrite case_contact by (apply plane_ok; auto).
    apply (adjacency_contact false); auto; apply (cell_ok_box false), plane_ok; auto.
Qed.

Theorem globe_any_split m c : globe_inv m -> In c (em_cells m) ->
  exists m', esplit_and_replace m (KS (e_id c)) = Ok m' /\ globe_inv m' /\ replaced m c m' /\
    em_bounds m' = em_bounds m /\ em_config m' = em_config m.
Proof.
  intros (Inv & W & s & f & R & E & An & Rg & Tr & Pl) Hc.
  destruct (sim_split_ok m c Inv Hc) as (kc & Es & Hk).
  destruct (globe_step m c Inv W Hc kc Hk s f R E An Rg Tr Pl) as (g' & Eg & G').
  destruct (esplit_cells m c Inv Hc kc Hk g') as (J & Rp).
  eexists. split; [apply (esplit_computes m c kc g' Es Eg)|]. split; [|split; [exact Rp|split; reflexivity]].
  split; [exact J|]. split; [|exact G'].
  intros x Hx. pose proof (m'_wide m c Inv W Hc kc Hk g' x Hx) as (_ & _ & _ & Wx). auto.
Qed.

(** What succeeds splits a cell of the mesh. *)
Lemma globe_split_cell m k m' : globe_inv m -> esplit_and_replace m k = Ok m' -> exists c, In c (em_cells m) /\ k = KS (e_id c).
Proof.
  intros (_ & _ & s & f & R & _) H. unfold esplit_and_replace in H.
  destruct (sim_split_cellbox (em_cells m) (key_int k)) as [kids|] eqn:Es; [|discriminate].
  unfold sim_split_cellbox in Es. destruct (get_cellbox (em_cells m) (key_int k)) as [c|] eqn:Ec; [|discriminate].
  apply get_cellbox_ok in Ec as [Hc Ec]. exists c. split; auto.
  destruct k as [z|z]; cbn in Ec; [|congruence]. exfalso.
  cbn [bind] in H. unfold esplit_graph in H. rewrite (rep_KS_miss _ _ _ _ _ R) in H. discriminate.
Qed.

Theorem globe_history whole m m' : globe_inv m -> env_tiles whole (em_cells m) -> esplits m m' ->
  globe_inv m' /\ env_tiles whole (em_cells m').
Proof.
  intros I T H. revert I T. induction H as [m|m m1 m2 k H IH E]; auto. intros I T. destruct (IH I T) as (I1 & T1).
  destruct (globe_split_cell _ _ _ I1 E) as (c & Hc & ->).
  destruct (globe_any_split m1 c I1 Hc) as (x & Ex & I2 & Rp & _). rewrite E in Ex. injection Ex as <-.
  split; [exact I2|]. apply (replaced_tiles_of whole m1 c m2 (proj1 I1) Hc Rp T1).
Qed.
