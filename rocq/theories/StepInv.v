(** Adaptive splitting for any invariant of meshes under which splitting a live
    cell does not raise (the proofs of Adaptive.v and AdaptiveFacts.v with the
    invariant as a parameter). *)
From Verif Require Import Base Geo Graph Cell Loaders Builder Spec MeshSpec DataSpec QLib CaseProofs SplitGeo Dict Rep SplitCore Invariant Grid Build Consequences Reach MeshFacts TrimProofs AggProofs FillProofs Adaptive ChainProofs AdaptiveFacts CrossSound.
Open Scope Z_scope.

Section Generic.
Variable Inv : mesh -> Prop.
Hypothesis step : forall m i c, Inv m -> live_cell m i c ->
  exists m' kidc, split_and_replace m i = Ok m' /\ Inv m' /\ kids_of m i c m' kidc.

Lemma gstep m i m' : Inv m -> split_and_replace m i = Ok m' -> exists c kidc, live_cell m i c /\ Inv m' /\ kids_of m i c m' kidc.
Proof.
  intros I E. destruct (split_some _ _ _ E) as (c & L). destruct (step m i c I L) as (mx & kidc & E' & I' & K).
  rewrite E in E'. injection E' as <-. eauto.
Qed.
Lemma gafter m i c m' kidc : live_cell m i c -> kids_of m i c m' kidc ->
  forall j x, live_cell m' j x <->
    (live_cell m j x /\ j <> i) \/ exists q, j = (List.length (cells m) + qpos q)%nat /\ x = kidc q.
Proof. intros Li (Ec & _) j x. unfold live_cell at 1. rewrite Ec. apply (live_after m i c); auto. Qed.
Lemma gsplits m m' : Inv m -> splits m m' -> Inv m'.
Proof. intros H S. induction S as [|m m1 m2 i S IH E]; auto. destruct (gstep _ _ _ (IH H) E) as (c & kidc & _ & I' & _). exact I'. Qed.
Lemma gpositions m i m' : Inv m -> split_and_replace m i = Ok m' ->
  (List.length (cells m) <= List.length (cells m'))%nat /\
  forall j, (j < List.length (cells m))%nat -> j <> i -> nth_error (cells m') j = nth_error (cells m) j.
Proof.
  intros I E. destruct (gstep _ _ _ I E) as (c & kidc & Li & I' & (Ec & _ & Hk)).
  rewrite Ec, list_set_length, app_length. split; [lia|].
  intros j Hj N. rewrite list_set_nth. destruct (Nat.eqb_spec j i); [contradiction|]. cbn [andb].
  apply nth_error_app1; auto.
Qed.
Lemma gdead m i m' : Inv m -> split_and_replace m i = Ok m' -> nth_error (cells m') i = Some None.
Proof.
  intros I E. destruct (gstep _ _ _ I E) as (c & kidc & Li & I' & (Ec & _ & Hk)).
  rewrite Ec, list_set_nth, Nat.eqb_refl. unfold live_cell in Li.
  assert (Hi : (i < List.length (cells m))%nat) by (apply nth_error_Some; congruence).
  rewrite app_length. replace (Nat.ltb i _) with true by (symmetry; apply Nat.ltb_lt; lia). auto.
Qed.
Lemma gsources hs m i m' : Inv m -> split_and_replace m i = Ok m' -> sources_ok hs m -> sources_ok hs m'.
Proof.
  intros I E S. destruct (gstep _ _ _ I E) as (c & kidc & Li & I' & SR).
  intros j x Hj. apply (gafter _ _ _ _ _ Li SR) in Hj as [[Hj _]|(q & -> & ->)].
  - eapply S; eauto.
  - destruct SR as (_ & _ & Hk). destruct (Hk q) as (_ & _ & _ & K4 & _). rewrite K4, child_heads. eapply S; eauto.
Qed.

Section Pass.
Variable depth : Z.
Variable stop : nat.
Variable hs : list (loader * list cond * fill).
Hypothesis Hstop : (stop <= List.length hs)%nat.
Lemma gpass : forall fuel m pos, Inv m -> sources_ok hs m ->
  (weight depth (skipn pos (cells m)) <= fuel)%nat ->
  exists m', split_pass fuel m pos stop depth = Ok m' /\
    splits_by (shallow_het depth stop) m m' /\ Inv m' /\ sources_ok hs m' /\
    (forall i, (i < pos)%nat -> (i < List.length (cells m))%nat -> nth_error (cells m') i = nth_error (cells m) i) /\
    (forall i c, live_cell m' i c -> (pos <= i)%nat -> ~ shallow_het depth stop c).
Proof.
  induction fuel as [|fuel IH]; intros m pos Iv So W.
  - unfold split_pass. destruct (nth_error (cells m) pos) as [o|] eqn:E.
    + exfalso. rewrite (skipn_nth _ _ _ E) in W. cbn in W. destruct o as [c|]; cbn in W; [|lia].
      pose proof (visits_pos (Z.to_nat (depth - cb_depth c))). lia.
    + exists m. split; auto. split; [constructor|]. do 2 (split; auto). split; auto.
      intros i c L Hi. exfalso. apply nth_error_None in E. assert (i < List.length (cells m))%nat by (apply nth_error_Some; unfold live_cell in L; congruence). lia.
  - cbn [split_pass]. destruct (nth_error (cells m) pos) as [o|] eqn:E.
    2:{ exists m. split; auto. split; [constructor|]. do 2 (split; auto). split; auto.
      intros i c L Hi. exfalso. apply nth_error_None in E. assert (i < List.length (cells m))%nat by (apply nth_error_Some; unfold live_cell in L; congruence). lia. }
    pose proof (skipn_nth _ _ _ E) as Sk. rewrite Sk in W. cbn [weight fold_right] in W. fold (weight depth (skipn (S pos) (cells m))) in W.
    destruct o as [c|]; cbn [bind weight1] in *.
    2:{ destruct (IH m (S pos) Iv So ltac:(lia)) as (m' & E' & S' & I' & So' & P' & F').
        exists m'. split; auto. split; auto. split; auto. split; auto. split; [intros; apply P'; lia|].
        intros i c L Hi. destruct (Nat.eq_dec i pos) as [->|N]; [|apply (F' i); auto; lia].
        exfalso. unfold live_cell in L. rewrite P' in L; [congruence|lia|]. apply nth_error_Some. congruence. }
    pose proof (So pos c E) as Hhs.
    assert (Ls : List.length (cb_sources c) = List.length hs) by (rewrite <- Hhs, map_length; auto).
    rewrite should_split_ok by lia. fold (decides c stop). cbn [bind].
    destruct ((cb_depth c <? depth) && decides c stop) eqn:D.
    + apply andb_true_iff in D as [D1 D2]. apply Z.ltb_lt in D1.
      destruct (step m pos c Iv E) as (m1 & kidc & E1 & I1 & SR). rewrite E1. cbn [bind].
      pose proof (gsources hs m pos m1 Iv E1 So) as So1.
      assert (Hp : (pos < List.length (cells m))%nat) by (apply nth_error_Some; congruence).
      assert (W1 : (weight depth (skipn (S pos) (cells m1)) <= fuel)%nat).
      { destruct SR as (Ec & _ & Hk). rewrite Ec, (list_set_skipn stop hs Hstop) by lia. rewrite skipn_app, weight_app.
        replace (S pos - List.length (cells m))%nat with 0%nat by lia. change (skipn 0 (map Some (map kidc quads))) with (map Some (map kidc quads)).
        assert (Wk : weight depth (map Some (map kidc quads)) = (4 * visits (Z.to_nat (depth - cb_depth c - 1)))%nat).
        { cbn [map quads weight fold_right weight1].
          destruct (Hk qNW) as (_ & -> & _). destruct (Hk qNE) as (_ & -> & _).
          destruct (Hk qSW) as (_ & -> & _). destruct (Hk qSE) as (_ & -> & _).
          replace (depth - (cb_depth c + 1)) with (depth - cb_depth c - 1) by lia. lia. }
        rewrite Wk.
        replace (Z.to_nat (depth - cb_depth c)) with (S (Z.to_nat (depth - cb_depth c - 1))) in W by lia.
        cbn [visits] in W. lia. }
      destruct (IH m1 (S pos) I1 So1 W1) as (m' & E' & S' & I' & So' & P' & F').
      exists m'. split; auto.
      destruct (gpositions m pos m1 Iv E1) as [Ll Lp]. pose proof (gdead m pos m1 Iv E1) as Dd.
      split.
      { eapply splits_by_trans; [|exact S']. eapply by_more; [constructor|exact E| |exact E1].
        split; auto. rewrite should_split_ok by lia. f_equal. exact D2. }
      split; auto. split; auto. split.
      * intros i Hi Hl. rewrite P' by lia. apply Lp; lia.
      * intros i x L Hi. destruct (Nat.eq_dec i pos) as [->|N]; [|apply (F' i); auto; lia].
        exfalso. unfold live_cell in L. rewrite P' in L by lia. congruence.
    + cbn [bind]. destruct (IH m (S pos) Iv So) as (m' & E' & S' & I' & So' & P' & F').
      { pose proof (visits_pos (Z.to_nat (depth - cb_depth c))). lia. }
      exists m'. split; auto. split; auto. split; auto. split; auto. split; [intros; apply P'; lia|].
      intros i x L Hi. destruct (Nat.eq_dec i pos) as [->|N]; [|apply (F' i); auto; lia].
      unfold live_cell in L. rewrite P' in L; [|lia|apply nth_error_Some; congruence].
      rewrite E in L. injection L as <-. intros [B1 B2].
      rewrite should_split_ok in B2 by lia. fold (decides c stop) in B2. injection B2 as B2.
      rewrite B2, andb_true_r in D. apply Z.ltb_ge in D. lia.
Qed.
End Pass.

Lemma gsources_pass depth hs m0 c0 : Inv m0 -> sources_ok hs m0 -> live_cell m0 0 c0 ->
  exists fuel m', (forall fuel', (fuel <= fuel')%nat -> split_to_depth fuel' m0 depth = Ok m') /\
    splits_by (het_for hs depth) m0 m' /\ Inv m' /\ sources_ok hs m' /\
    settled depth (List.length hs) m'.
Proof.
  intros Iv So L0. set (srcs := cb_sources c0).
  assert (Hhs : map meta_head srcs = hs) by (eapply So; eauto).
  assert (Ll : List.length srcs = List.length hs) by (rewrite <- Hhs, map_length; auto).
  set (body := fun fuel m k => s <- py_nth srcs (Z.of_nat k) ;;
     match m_conds s with [] => Ok m | _ :: _ => split_pass fuel m 0 (S k) depth end).
  assert (X : forall n, (n <= List.length hs)%nat -> exists fuel m',
     (forall fuel', (fuel <= fuel')%nat -> foldM (body fuel') m0 (seq 0 n) = Ok m') /\
     splits_by (het_for hs depth) m0 m' /\ Inv m' /\ sources_ok hs m' /\ settled depth n m').
  { induction n as [|n IH]; intros Hn.
    - exists 0%nat, m0. split; [auto|]. split; [constructor|]. split; auto. split; auto.
      intros i c _ _. reflexivity.
    - destruct IH as (fuel & m1 & E1 & S1 & I1 & So1 & St1); [lia|].
      destruct (nth_error srcs n) as [s|] eqn:Es; [|apply nth_error_None in Es; lia].
      assert (Eb : forall fuel', (fuel <= fuel')%nat -> foldM (body fuel') m0 (seq 0 (S n)) = body fuel' m1 n).
      { intros fuel' Hf. rewrite seq_S, foldM_app, E1 by auto. cbn [bind foldM Nat.add].
        destruct (body fuel' m1 n); auto. }
      destruct (m_conds s) as [|cd cds] eqn:Ec.
      + exists fuel, m1. split.
        { intros fuel' Hf. rewrite Eb by auto. unfold body. rewrite (py_nth_some _ _ _ Es). cbn [bind]. rewrite Ec. auto. }
        split; auto. split; auto. split; auto.
        intros i c Lc Hd. pose proof (So1 i c Lc) as Hc.
        destruct (nth_error (cb_sources c) n) as [s'|] eqn:Es'.
        2:{ apply nth_error_None in Es'. rewrite <- Hc, map_length in Hn. lia. }
        rewrite (decides_no_conds c n s'); auto; [eapply St1; eauto|].
        pose proof (nth_head _ _ _ _ Hc Es') as A. pose proof (nth_head _ c0 _ _ Hhs Es) as B.
        rewrite A in B. unfold meta_head in B. injection B as _ B _. congruence.
      + set (f2 := weight depth (skipn 0 (cells m1))).
        destruct (gpass depth (S n) hs Hn f2 m1 0 I1 So1 (le_n _)) as (m2 & _ & _).
        assert (U : exists m2, (forall f, (f2 <= f)%nat -> split_pass f m1 0 (S n) depth = Ok m2) /\
            splits_by (shallow_het depth (S n)) m1 m2 /\ Inv m2 /\ sources_ok hs m2 /\
            (forall i c, live_cell m2 i c -> ~ shallow_het depth (S n) c)).
        { destruct (gpass depth (S n) hs Hn f2 m1 0 I1 So1 (le_n _)) as (m3 & E3 & S3 & I3 & So3 & _ & F3).
          exists m3. split.
          - intros f Hf. eapply split_pass_more; eauto.
          - split; auto. split; auto. split; auto. intros i c L. apply (F3 i); auto. lia. }
        clear m2. destruct U as (m2 & E2 & S2 & I2 & So2 & F2).
        exists (Nat.max fuel f2), m2. split.
        { intros fuel' Hf. rewrite Eb by lia. unfold body. rewrite (py_nth_some _ _ _ Es). cbn [bind]. rewrite Ec.
          apply E2. lia. }
        split.
        { eapply splits_by_trans; [exact S1|]. eapply splits_by_weaken; [|exact S2].
          intros c [A B]. split; auto. exists (S n). auto. }
        split; auto. split; auto.
        intros i c L Hd. destruct (decides c (S n)) eqn:Dc; auto. exfalso. apply (F2 i c L). split; auto.
        rewrite should_split_ok; [f_equal; exact Dc|]. rewrite <- (map_length meta_head), (So2 i c L). auto. }
  destruct (X (List.length hs) (le_n _)) as (fuel & m' & E & Rest).
  exists fuel, m'. split; auto. intros fuel' Hf. unfold split_to_depth.
  change 0 with (Z.of_nat 0). rewrite (py_nth_some _ _ _ L0). cbn [bind]. fold srcs. rewrite Ll. apply E; auto.
Qed.

Lemma gsplits_sources hs m m' : Inv m -> splits m m' -> sources_ok hs m -> sources_ok hs m'.
Proof. intros Iv S H. induction S as [|m m1 m2 i S IH E]; auto. apply (gsources hs m1 i m2); auto. eapply gsplits; eauto. Qed.
Lemma gby_depth P m m' depth : Inv m -> splits_by P m m' -> (forall c, P c -> cb_depth c < depth) ->
  forall i c, live_cell m' i c -> live_cell m i c \/ cb_depth c <= depth.
Proof.
  intros Iv S HP. induction S as [|m m1 m2 k x S IH Lx Px E]; auto. intros i c L.
  pose proof (gsplits _ _ Iv (splits_by_splits _ _ _ S)) as I1.
  destruct (gstep _ _ _ I1 E) as (c1 & kidc & Li & I' & SR).
  assert (c1 = x) by (unfold live_cell in *; congruence). subst c1.
  apply (gafter _ _ _ _ _ Li SR) in L as [[L _]|(q & -> & ->)]; [apply IH; auto|].
  right. destruct SR as (_ & _ & Hk). destruct (Hk q) as (_ & -> & _). apply HP in Px. lia.
Qed.
Lemma gby_ancestors P m m' : Inv m -> splits_by P m m' ->
  (forall i c, live_cell m i c -> Forall P (ancestors c)) -> forall i c, live_cell m' i c -> Forall P (ancestors c).
Proof.
  intros Iv S H. induction S as [|m m1 m2 k x S IH Lx Px E]; auto. intros i c L.
  pose proof (gsplits _ _ Iv (splits_by_splits _ _ _ S)) as I1.
  destruct (gstep _ _ _ I1 E) as (c1 & kidc & Li & I' & SR).
  assert (c1 = x) by (unfold live_cell in *; congruence). subst c1.
  apply (gafter _ _ _ _ _ Li SR) in L as [[L _]|(q & -> & ->)]; [eapply IH; eauto|].
  destruct SR as (_ & _ & Hk). destruct (Hk q) as (_ & _ & Hp & _). rewrite (ancestors_kid _ _ Hp). constructor; auto. eapply IH; eauto.
Qed.
Lemma gby_het hs depth m m' : Inv m -> sources_ok hs m -> splits_by (het_for hs depth) m m' ->
  splits_by (may_split depth (List.length hs)) m m'.
Proof.
  intros Iv So S. induction S as [|m m1 m2 k x S IH Lx Px E]; [constructor|].
  eapply by_more; [apply IH; auto|exact Lx| |exact E].
  apply (het_wants hs); auto. eapply (gsplits_sources hs m m1); eauto. eapply splits_by_splits; eauto.
Qed.
(** Splitting to a depth ends; only cells that called for it are split, and no cell
    that calls for it is left above the depth. *)
Theorem gadaptive hs m c0 depth : Inv m -> sources_ok hs m -> live_cell m 0 c0 ->
  exists fuel m', (forall fuel', (fuel <= fuel')%nat -> split_to_depth fuel' m depth = Ok m') /\
    Inv m' /\ splits m m' /\
    splits_by (may_split depth (List.length hs)) m m' /\
    (forall i c, live_cell m' i c -> live_cell m i c \/ cb_depth c <= depth) /\
    (forall i c, live_cell m' i c -> cb_depth c < depth -> ~ wants_split c (List.length hs)).
Proof.
  intros Iv So L0.
  destruct (gsources_pass depth hs m c0 Iv So L0) as (fuel & m' & E & S & I' & So' & St).
  exists fuel, m'. split; auto. split; auto. split; [eapply splits_by_splits; eauto|].
  pose proof (gby_het _ depth m m' Iv So S) as S2. split; auto. split.
  - apply (gby_depth _ m m' depth Iv S2). intros c [H _]. auto.
  - intros i c L D W. apply decides_spec in W. rewrite (St i c L D) in W. discriminate.
Qed.
End Generic.
