(** should_split and split_to_depth. *)
From Coq Require Import Permutation.
From Verif Require Import Base Geo Graph Cell Builder Spec MeshSpec QLib CaseProofs SplitGeo Dict Rep SplitCore Invariant Grid Build Consequences Reach MeshFacts.
Open Scope Z_scope.

(** ** The decision *)
Lemma hom_eqb_spec a b : reflect (a = b) (hom_eqb a b).
Proof. destruct a, b; constructor; congruence. Qed.
Lemma exists_hom h l : existsb (hom_eqb h) l = true <-> In h l.
Proof.
  rewrite existsb_exists. split.
  - intros (x & H & E). destruct (hom_eqb_spec h x); [subst; auto|discriminate].
  - intros H. exists h. split; auto. destruct (hom_eqb_spec h h); auto.
Qed.
Lemma count_clr_le l : (count_clr l <= List.length l)%nat.
Proof. unfold count_clr. induction l as [|a l IH]; cbn; auto. destruct a; cbn; lia. Qed.
Lemma count_clr_all l : count_clr l = List.length l <-> forall h, In h l -> h = CLR.
Proof.
  unfold count_clr. induction l as [|a l IH]; cbn; [split; auto; intros _ h []|].
  pose proof (count_clr_le l) as LE. unfold count_clr in LE.
  destruct a; cbn; (split; intros H); try (exfalso; lia).
  - intros h [<-|Hh]; auto. apply IH; auto.
  - f_equal. apply IH. auto.
  - specialize (H HOM (or_introl eq_refl)). discriminate.
  - specialize (H MIN (or_introl eq_refl)). discriminate.
  - specialize (H HET (or_introl eq_refl)). discriminate.
Qed.
Lemma split_decision_spec l : split_decision l = true <-> In HET l /\ ~ In HOM l /\ ~ In MIN l.
Proof.
  unfold split_decision.
  pose proof (exists_hom HOM l) as EH. pose proof (exists_hom MIN l) as EM. pose proof (count_clr_all l) as CA.
  destruct (existsb (hom_eqb HOM) l); [split; [discriminate|]; intros (_ & N & _); exfalso; apply N; apply EH; auto|].
  destruct (existsb (hom_eqb MIN) l); [split; [discriminate|]; intros (_ & _ & N); exfalso; apply N; apply EM; auto|].
  assert (NH : ~ In HOM l) by (intros H; apply EH in H; discriminate).
  assert (NM : ~ In MIN l) by (intros H; apply EM in H; discriminate).
  destruct (Nat.eqb_spec (count_clr l) (List.length l)) as [E|N].
  - split; [discriminate|]. intros (H & _). apply CA with (h := HET) in E; auto. discriminate.
  - split; auto. intros _. split; auto.
    destruct (existsb (hom_eqb HET) l) eqn:X; [apply exists_hom; auto|].
    exfalso. apply N. apply CA. intros h Hh. destruct h; auto; try contradiction.
    apply exists_hom in Hh. congruence.
Qed.
Lemma split_decision_ext l l' : (forall h, In h l <-> In h l') -> split_decision l = split_decision l'.
Proof.
  intros H. pose proof (split_decision_spec l) as A. pose proof (split_decision_spec l') as B.
  rewrite <- !H in B. destruct (split_decision l), (split_decision l'); auto; exfalso;
  [assert (false = true) by (apply B, A; auto) | assert (false = true) by (apply A, B; auto)]; discriminate.
Qed.

Lemma mapM_app {A B} (f : A -> res B) l l' : mapM f (l ++ l') = (x <- mapM f l ;; y <- mapM f l' ;; Ok (x ++ y)).
Proof.
  induction l as [|a l IH]; cbn [app mapM bind].
  - destruct (mapM f l'); auto.
  - destruct (f a) as [b|e]; cbn [bind]; auto. rewrite IH.
    destruct (mapM f l) as [x|e]; cbn [bind]; auto. destruct (mapM f l') as [y|e]; cbn [bind]; auto.
Qed.
Lemma firstn_S_nth {A} (l : list A) n a : nth_error l n = Some a -> firstn (S n) l = firstn n l ++ [a].
Proof.
  revert n. induction l as [|x l IH]; intros [|n] H; try discriminate; cbn in *.
  - congruence.
  - f_equal. rewrite <- IH; auto.
Qed.
Lemma mapM_firstn {A} (l : list A) n : (n <= List.length l)%nat ->
  mapM (fun i => py_nth l (Z.of_nat i)) (seq 0 n) = Ok (firstn n l).
Proof.
  induction n as [|n IH]; intros H; auto.
  rewrite seq_S, mapM_app, IH by lia. cbn [bind mapM Nat.add].
  destruct (nth_error l n) as [a|] eqn:Ea; [|apply nth_error_None in Ea; lia].
  rewrite (py_nth_some _ _ _ Ea). cbn [bind]. rewrite (firstn_S_nth _ _ _ Ea). auto.
Qed.

Lemma should_split_ok c n : (n <= List.length (cb_sources c))%nat ->
  should_split c n = Ok (split_decision (hom_conditions (cb_bounds c) (firstn n (cb_sources c)))).
Proof. intros H. unfold should_split. rewrite mapM_firstn by auto. reflexivity. Qed.

Lemma In_conditions b srcs h : In h (hom_conditions b srcs) <->
  exists s cd, In s srcs /\ In cd (m_conds s) /\ h = l_hom (m_loader s) b cd (m_subset s).
Proof.
  unfold hom_conditions. rewrite in_flat_map. split.
  - intros (s & Hs & Hm). apply in_map_iff in Hm as (cd & <- & Hc). exists s, cd. auto.
  - intros (s & cd & Hs & Hc & ->). exists s. split; auto. apply in_map_iff. eauto.
Qed.

Definition decides (c : cellbox) (n : nat) : bool :=
  split_decision (hom_conditions (cb_bounds c) (firstn n (cb_sources c))).
Lemma decides_spec c n : decides c n = true <-> wants_split c n.
Proof. unfold decides, wants_split, answers. rewrite split_decision_spec, !In_conditions. tauto. Qed.

(** C15 *)
Theorem should_split_rule : forall c n, (n <= List.length (cb_sources c))%nat ->
  exists r, should_split c n = Ok r /\
    (r = true <-> wants_split c n) /\
    (answers c n HOM \/ answers c n MIN -> r = false) /\
    ((forall h, answers c n h -> h = CLR) -> r = false).
Proof.
  intros c n H. exists (decides c n). rewrite should_split_ok by auto. split; auto.
  pose proof (decides_spec c n) as D. split; auto. unfold wants_split in D.
  split; intros X; destruct (decides c n); auto; exfalso;
  destruct (proj1 D eq_refl) as (A & B & C); [tauto | apply X in A; discriminate].
Qed.

Theorem should_split_breadth_first_rule : forall c,
  should_split c (List.length (cb_sources c)) = Ok (should_split_breadth_first c) /\
  (should_split_breadth_first c = true <-> wants_split c (List.length (cb_sources c))).
Proof.
  intros c. rewrite should_split_ok by auto. rewrite <- decides_spec. unfold decides. rewrite firstn_all. split; [reflexivity|tauto].
Qed.

Theorem should_split_order_independent : forall c c',
  cb_bounds c = cb_bounds c' ->
  (exists l, Permutation (cb_sources c) l /\
     Forall2 (fun s s' => m_loader s = m_loader s' /\ m_subset s = m_subset s' /\
                          Permutation (m_conds s) (m_conds s')) l (cb_sources c')) ->
  should_split_breadth_first c = should_split_breadth_first c'.
Proof.
  intros c c' Eb (l & P & F). unfold should_split_breadth_first. rewrite Eb. apply split_decision_ext.
  intros h. rewrite !In_conditions. split.
  - intros (s & cd & Hs & Hc & ->). apply (Permutation_in _ P) in Hs.
    clear P. induction F as [|x y l l' (E1 & E2 & E3) F IH]; [destruct Hs|].
    destruct Hs as [->|Hs].
    + exists y, cd. split; [left; auto|]. split; [eapply Permutation_in; eauto|]. congruence.
    + destruct (IH Hs) as (s' & cd' & H1 & H2 & H3). exists s', cd'. split; [right; auto|]. auto.
  - intros (s & cd & Hs & Hc & ->).
    assert (X : exists s' , In s' l /\ m_loader s' = m_loader s /\ m_subset s' = m_subset s /\ In cd (m_conds s')).
    { clear P. induction F as [|x y l l' (E1 & E2 & E3) F IH]; [destruct Hs|].
      destruct Hs as [->|Hs].
      - exists x. split; [left; auto|]. split; [auto|]. split; [auto|]. eapply Permutation_in; [apply Permutation_sym|]; eauto.
      - destruct (IH Hs) as (s' & H1 & H2). exists s'. split; [right; auto|auto]. }
    destruct X as (s' & Hs' & E1 & E2 & Hc'). exists s', cd. split; [eapply Permutation_in; [apply Permutation_sym; exact P|auto]|].
    split; auto. congruence.
Qed.

(** ** Data source heads: everything but the data subset *)
Definition meta_head (s : metadata) : loader * list cond * fill := (m_loader s, m_conds s, m_fill s).
Definition sources_ok (hs : list (loader * list cond * fill)) (m : mesh) : Prop :=
  forall i c, live_cell m i c -> map meta_head (cb_sources c) = hs.

Lemma child_heads b srcs : map meta_head (child_sources b srcs) = map meta_head srcs.
Proof. unfold child_sources. rewrite map_map. apply map_ext. reflexivity. Qed.

Lemma split_sources hs m i m' : mesh_inv m -> split_and_replace m i = Ok m' -> sources_ok hs m -> sources_ok hs m'.
Proof.
  intros Inv E S. destruct (split_step _ _ _ Inv E) as (c & kidc & Li & I' & SR & _).
  intros j x Hj. apply (after_split _ _ _ _ _ Inv Li SR) in Hj as [[Hj _]|(q & -> & ->)].
  - eapply S; eauto.
  - destruct SR as (_ & _ & Hk). destruct (Hk q) as (_ & _ & _ & K4 & _). rewrite K4, child_heads. eapply S; eauto.
Qed.

Lemma splits_by_splits P m m' : splits_by P m m' -> splits m m'.
Proof. induction 1; [constructor|econstructor; eauto]. Qed.
Lemma splits_by_trans P m1 m2 m3 : splits_by P m1 m2 -> splits_by P m2 m3 -> splits_by P m1 m3.
Proof. intros H1 H2. induction H2 as [|m ma mb i c H2 IH L Pc E]; auto. exact (by_more P m1 ma mb i c (IH H1) L Pc E). Qed.
Lemma splits_by_weaken (P P' : cellbox -> Prop) m m' : (forall c, P c -> P' c) -> splits_by P m m' -> splits_by P' m m'.
Proof. intros H S. induction S as [|m ma mb i c S IH L Pc E]; [constructor|]. exact (by_more P' m ma mb i c IH L (H c Pc) E). Qed.

(** ** Termination measure: the number of list positions a cell can still cause
    to be visited. *)
Fixpoint visits (k : nat) : nat := match k with O => 1 | S k' => 1 + 4 * visits k' end.
Definition weight1 (depth : Z) (o : option cellbox) : nat :=
  match o with None => 1 | Some c => visits (Z.to_nat (depth - cb_depth c)) end.
Definition weight (depth : Z) (l : list (option cellbox)) : nat :=
  fold_right (fun o acc => weight1 depth o + acc)%nat 0%nat l.
Lemma weight_app depth l l' : weight depth (l ++ l') = (weight depth l + weight depth l')%nat.
Proof. induction l; cbn; auto. fold (weight depth (l ++ l')) (weight depth l). lia. Qed.
Lemma visits_pos k : (1 <= visits k)%nat.
Proof. destruct k; cbn [visits]; lia. Qed.

Section Pass.
Variable depth : Z.
Variable stop : nat.
Variable hs : list (loader * list cond * fill).
Hypothesis Hstop : (stop <= List.length hs)%nat.

Definition shallow_het (c : cellbox) : Prop := cb_depth c < depth /\ should_split c stop = Ok true.

Lemma list_set_skipn {A} (l : list A) i v n : (i < n)%nat -> skipn n (list_set l i v) = skipn n l.
Proof.
  revert i n. induction l as [|a l IH]; intros [|i] [|n] H; cbn; auto; try lia. apply IH. lia.
Qed.
Lemma skipn_nth {A} (l : list A) n a : nth_error l n = Some a -> skipn n l = a :: skipn (S n) l.
Proof. revert n. induction l as [|x l IH]; intros [|n] H; cbn in *; try discriminate; [congruence|]. apply IH; auto. Qed.

Lemma split_pass_ok : forall fuel m pos, mesh_inv m -> sources_ok hs m ->
  (weight depth (skipn pos (cells m)) <= fuel)%nat ->
  exists m', split_pass fuel m pos stop depth = Ok m' /\
    splits_by shallow_het m m' /\ mesh_inv m' /\ sources_ok hs m' /\
    (forall i, (i < pos)%nat -> (i < List.length (cells m))%nat -> nth_error (cells m') i = nth_error (cells m) i) /\
    (forall i c, live_cell m' i c -> (pos <= i)%nat -> ~ shallow_het c).
Proof.
  induction fuel as [|fuel IH]; intros m pos Inv So W.
  - unfold split_pass. destruct (nth_error (cells m) pos) as [o|] eqn:E.
    + exfalso. rewrite (skipn_nth _ _ _ E) in W. cbn in W. destruct o as [c|]; cbn in W; [|lia].
      pose proof (visits_pos (Z.to_nat (depth - cb_depth c))). lia.
    + exists m. split; auto. split; [constructor|]. do 2 (split; auto). split; auto.
      intros i c L Hi. exfalso. apply nth_error_None in E. assert (i < List.length (cells m))%nat by (apply nth_error_Some; unfold live_cell in L; congruence). lia.
  - cbn [split_pass]. destruct (nth_error (cells m) pos) as [o|] eqn:E.
    2:{ exists m. split; auto. split; [constructor|]. do 2 (split; auto). split; auto.
      intros i c L Hi. exfalso. apply nth_error_None in E. assert (i < List.length (cells m))%nat by (apply nth_error_Some; unfold live_cell in L; congruence). lia. }
    pose proof (skipn_nth _ _ _ E) as Sk. rewrite Sk in W. cbn [weight fold_right] in W. fold (weight depth (skipn (S pos) (cells m))) in W.
    destruct o as [c|]; cbn [bind weight1] in *.
    2:{ destruct (IH m (S pos) Inv So ltac:(lia)) as (m' & E' & S' & I' & So' & P' & F').
        exists m'. split; auto. split; auto. split; auto. split; auto. split; [intros; apply P'; lia|].
        intros i c L Hi. destruct (Nat.eq_dec i pos) as [->|N]; [|apply (F' i); auto; lia].
        exfalso. unfold live_cell in L. rewrite P' in L; [congruence|lia|]. apply nth_error_Some. congruence. }
    pose proof (So pos c E) as Hhs.
    assert (Ls : List.length (cb_sources c) = List.length hs) by (rewrite <- Hhs, map_length; auto).
    rewrite should_split_ok by lia. fold (decides c stop). cbn [bind].
    destruct ((cb_depth c <? depth) && decides c stop) eqn:D.
    + apply andb_true_iff in D as [D1 D2]. apply Z.ltb_lt in D1.
      destruct (split_and_replace_ok m pos c Inv E) as (m1 & kidc & E1 & I1 & SR & _). rewrite E1. cbn [bind].
      pose proof (split_sources hs m pos m1 Inv E1 So) as So1.
      assert (Hp : (pos < List.length (cells m))%nat) by (apply nth_error_Some; congruence).
      assert (W1 : (weight depth (skipn (S pos) (cells m1)) <= fuel)%nat).
      { destruct SR as (Ec & _ & Hk). rewrite Ec, list_set_skipn by lia. rewrite skipn_app, weight_app.
        replace (S pos - List.length (cells m))%nat with 0%nat by lia. change (skipn 0 (map Some (map kidc quads))) with (map Some (map kidc quads)).
        assert (Wk : weight depth (map Some (map kidc quads)) = (4 * visits (Z.to_nat (depth - cb_depth c - 1)))%nat).
        { cbn [map quads weight fold_right weight1].
          destruct (Hk qNW) as (_ & -> & _). destruct (Hk qNE) as (_ & -> & _).
          destruct (Hk qSW) as (_ & -> & _). destruct (Hk qSE) as (_ & -> & _).
          replace (depth - (cb_depth c + 1)) with (depth - cb_depth c - 1) by lia. lia. }
        rewrite Wk.
        replace (Z.to_nat (depth - cb_depth c)) with (S (Z.to_nat (depth - cb_depth c - 1))) in W by lia.
        cbn [visits] in W. lia. }
      destruct (IH m1 (S pos) I1 So1 W1) as (m' & E' & S' & I' & So' & P' & F').
      exists m'. split; auto.
      destruct (split_positions m pos m1 Inv E1) as [Ll Lp]. pose proof (split_dead m pos m1 Inv E1) as Dd.
      split.
      { eapply splits_by_trans; [|exact S']. eapply by_more; [constructor|exact E| |exact E1].
        split; auto. rewrite should_split_ok by lia. f_equal. exact D2. }
      split; auto. split; auto. split.
      * intros i Hi Hl. rewrite P' by lia. apply Lp; lia.
      * intros i x L Hi. destruct (Nat.eq_dec i pos) as [->|N]; [|apply (F' i); auto; lia].
        exfalso. unfold live_cell in L. rewrite P' in L by lia. congruence.
    + cbn [bind]. destruct (IH m (S pos) Inv So) as (m' & E' & S' & I' & So' & P' & F').
      { pose proof (visits_pos (Z.to_nat (depth - cb_depth c))). lia. }
      exists m'. split; auto. split; auto. split; auto. split; auto. split; [intros; apply P'; lia|].
      intros i x L Hi. destruct (Nat.eq_dec i pos) as [->|N]; [|apply (F' i); auto; lia].
      unfold live_cell in L. rewrite P' in L; [|lia|apply nth_error_Some; congruence].
      rewrite E in L. injection L as <-. intros [B1 B2].
      rewrite should_split_ok in B2 by lia. fold (decides c stop) in B2. injection B2 as B2.
      rewrite B2, andb_true_r in D. apply Z.ltb_ge in D. lia.
Qed.
End Pass.

Lemma split_pass_more : forall fuel m pos stop depth m', split_pass fuel m pos stop depth = Ok m' ->
  forall fuel', (fuel <= fuel')%nat -> split_pass fuel' m pos stop depth = Ok m'.
Proof.
  induction fuel as [|fuel IH]; intros m pos stop depth m' H fuel' Hf.
  - destruct fuel' as [|fuel']; auto. cbn [split_pass] in *. destruct (nth_error (cells m) pos); [discriminate|auto].
  - destruct fuel' as [|fuel']; [lia|]. cbn [split_pass] in *.
    destruct (nth_error (cells m) pos) as [o|]; auto.
    match type of H with bind ?x _ = _ => destruct x as [m1|e] end; [|discriminate]. cbn [bind] in *.
    eapply IH; eauto. lia.
Qed.

(** ** All sources in turn *)
(** A cell is settled for the first [n] sources. *)
Definition settled (depth : Z) (n : nat) (m : mesh) : Prop :=
  forall i c, live_cell m i c -> cb_depth c < depth -> decides c n = false.

Lemma decides_no_conds c n s : nth_error (cb_sources c) n = Some s -> m_conds s = [] -> decides c (S n) = decides c n.
Proof.
  intros H E. unfold decides. rewrite (firstn_S_nth _ _ _ H). unfold hom_conditions.
  rewrite flat_map_app. cbn [flat_map]. rewrite E. cbn [map app]. rewrite app_nil_r. auto.
Qed.

Definition het_for (hs : list (loader * list cond * fill)) (depth : Z) (c : cellbox) : Prop :=
  cb_depth c < depth /\ exists n, (n <= List.length hs)%nat /\ should_split c n = Ok true.

Lemma nth_head hs c n s : map meta_head (cb_sources c) = hs -> nth_error (cb_sources c) n = Some s ->
  nth_error hs n = Some (meta_head s).
Proof. intros <- H. rewrite nth_error_map, H. auto. Qed.

Lemma sources_pass depth hs m0 c0 : mesh_inv m0 -> sources_ok hs m0 -> live_cell m0 0 c0 ->
  exists fuel m', (forall fuel', (fuel <= fuel')%nat -> split_to_depth fuel' m0 depth = Ok m') /\
    splits_by (het_for hs depth) m0 m' /\ mesh_inv m' /\ sources_ok hs m' /\
    settled depth (List.length hs) m'.
Proof.
  intros Inv So L0. set (srcs := cb_sources c0).
  assert (Hhs : map meta_head srcs = hs) by (eapply So; eauto).
  assert (Ll : List.length srcs = List.length hs) by (rewrite <- Hhs, map_length; auto).
  set (body := fun fuel m k => s <- py_nth srcs (Z.of_nat k) ;;
     match m_conds s with [] => Ok m | _ :: _ => split_pass fuel m 0 (S k) depth end).
  assert (X : forall n, (n <= List.length hs)%nat -> exists fuel m',
     (forall fuel', (fuel <= fuel')%nat -> foldM (body fuel') m0 (seq 0 n) = Ok m') /\
     splits_by (het_for hs depth) m0 m' /\ mesh_inv m' /\ sources_ok hs m' /\ settled depth n m').
  { induction n as [|n IH]; intros Hn.
    - exists 0%nat, m0. split; [auto|]. split; [constructor|]. split; auto. split; auto.
      intros i c _ _. reflexivity.
    - destruct IH as (fuel & m1 & E1 & S1 & I1 & So1 & St1); [lia|].
      destruct (nth_error srcs n) as [s|] eqn:Es; [|apply nth_error_None in Es; lia].
      assert (Eb : forall fuel', (fuel <= fuel')%nat -> foldM (body fuel') m0 (seq 0 (S n)) = body fuel' m1 n).
      { intros fuel' Hf. rewrite seq_S, foldM_app, E1 by auto. cbn [bind foldM Nat.add].
        destruct (body fuel' m1 n); auto. }
      destruct (m_conds s) as [|cd cds] eqn:Ec.
      + exists fuel, m1. split.
        { intros fuel' Hf. rewrite Eb by auto. unfold body. rewrite (py_nth_some _ _ _ Es). cbn [bind]. rewrite Ec. auto. }
        split; auto. split; auto. split; auto.
        intros i c Lc Hd. pose proof (So1 i c Lc) as Hc.
        destruct (nth_error (cb_sources c) n) as [s'|] eqn:Es'.
        2:{ apply nth_error_None in Es'. rewrite <- Hc, map_length in Hn. lia. }
        rewrite (decides_no_conds c n s'); auto; [eapply St1; eauto|].
        pose proof (nth_head _ _ _ _ Hc Es') as A. pose proof (nth_head _ c0 _ _ Hhs Es) as B.
        rewrite A in B. unfold meta_head in B. injection B as _ B _. congruence.
      + set (f2 := weight depth (skipn 0 (cells m1))).
        destruct (split_pass_ok depth (S n) hs Hn f2 m1 0 I1 So1 (le_n _)) as (m2 & _ & _).
        assert (U : exists m2, (forall f, (f2 <= f)%nat -> split_pass f m1 0 (S n) depth = Ok m2) /\
            splits_by (shallow_het depth (S n)) m1 m2 /\ mesh_inv m2 /\ sources_ok hs m2 /\
            (forall i c, live_cell m2 i c -> ~ shallow_het depth (S n) c)).
        { destruct (split_pass_ok depth (S n) hs Hn f2 m1 0 I1 So1 (le_n _)) as (m3 & E3 & S3 & I3 & So3 & _ & F3).
          exists m3. split.
          - intros f Hf. eapply split_pass_more; eauto.
          - split; auto. split; auto. split; auto. intros i c L. apply (F3 i); auto. lia. }
        clear m2. destruct U as (m2 & E2 & S2 & I2 & So2 & F2).
        exists (Nat.max fuel f2), m2. split.
        { intros fuel' Hf. rewrite Eb by lia. unfold body. rewrite (py_nth_some _ _ _ Es). cbn [bind]. rewrite Ec.
          apply E2. lia. }
        split.
        { eapply splits_by_trans; [exact S1|]. eapply splits_by_weaken; [|exact S2].
          intros c [A B]. split; auto. exists (S n). auto. }
        split; auto. split; auto.
        intros i c L Hd. destruct (decides c (S n)) eqn:Dc; auto. exfalso. apply (F2 i c L). split; auto.
        rewrite should_split_ok; [f_equal; exact Dc|]. rewrite <- (map_length meta_head), (So2 i c L). auto. }
  destruct (X (List.length hs) (le_n _)) as (fuel & m' & E & Rest).
  exists fuel, m'. split; auto. intros fuel' Hf. unfold split_to_depth.
  change 0 with (Z.of_nat 0). rewrite (py_nth_some _ _ _ L0). cbn [bind]. fold srcs. rewrite Ll. apply E; auto.
Qed.
