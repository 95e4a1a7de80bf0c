(** Proofs about the decision of vector sources (C18). *)
From Coq Require Import Setoid.
From Verif Require Import Base Geo Cell Loaders Spec MeshSpec DataSpec VecAggSpec QLib CaseProofs TrimProofs AggProofs VecHomSpec.
Open Scope Q_scope.

Definition full (p : point) : bool := forallb (fun o => match o with Some _ => true | None => false end) (p_vals p).
Lemma full_vector p : full p = true <-> exists v, vector_is p v.
Proof.
  unfold full, vector_is. induction (p_vals p) as [|[x|] l IH]; cbn; split.
  - intros _. exists []. reflexivity.
  - reflexivity.
  - intros H. apply IH in H as (v & ->). exists (x :: v). reflexivity.
  - intros (v & E). apply IH. destruct v as [|y v]; [discriminate|]. injection E as _ E. eauto.
  - discriminate.
  - intros ([|y v] & E); discriminate.
Qed.
Definition dist2 (l : list (option Q * option Q)) : option Q :=
  fold_right (fun vm acc => match vm, acc with
                            | (Some x, Some m), Some a => Some ((x - m) * (x - m) + a)%Q
                            | _, _ => None
                            end) (Some 0%Q) l.
Lemma dist2_cons a b l : dist2 ((a, b) :: l) = match a, b, dist2 l with Some x, Some m, Some s => Some ((x - m) * (x - m) + s) | _, _, _ => None end.
Proof. reflexivity. Qed.
Lemma dmag2_none m p : full p = false -> List.length m = List.length (p_vals p) -> dmag2 m p = None.
Proof.
  unfold full, dmag2. fold (dist2 (combine (p_vals p) m)). revert m. induction (p_vals p) as [|[x|] l IH]; intros [|y m] F L; try discriminate; cbn [combine]; rewrite dist2_cons.
  - injection L as L. rewrite (IH m F L). destruct y; reflexivity.
  - reflexivity.
Qed.
Lemma dmag2_some ms p v : vector_is p v -> List.length ms = List.length v -> exists q, dmag2 (map Some ms) p = Some q /\ q == distance2 v ms.
Proof.
  unfold vector_is, dmag2. intros ->. fold (dist2 (combine (map Some v) (map Some ms))). revert ms. induction v as [|x v IH]; intros [|y ms] L; try discriminate; [exists 0; split; reflexivity|].
  injection L as L. destruct (IH ms L) as (q & E & Q'). cbn [map combine]. rewrite dist2_cons, E. eexists. split; [reflexivity|]. cbn [distance2]. rewrite Q'. reflexivity.
Qed.
Lemma distance2_eq v : forall m m', Forall2 Qeq m m' -> distance2 v m == distance2 v m'.
Proof. induction v as [|x v IH]; intros m m' F; [reflexivity|]. destruct F as [|a b m m' E F]; [reflexivity|]. cbn. rewrite (IH _ _ F), E. reflexivity. Qed.
Lemma norm_over_spec t s : norm_over t s = true <-> t < 0 \/ t * t < s.
Proof. unfold norm_over. rewrite orb_true_iff. destruct (qltb_spec t 0), (qltb_spec (t * t) s); split; intros; try tauto; try (destruct H; discriminate); intuition. Qed.
Lemma column_length i d : List.length (column i d) = List.length d.
Proof. unfold column. apply map_length. Qed.
Lemma known_drop l : known l = Z.of_nat (List.length (drop_nan l)).
Proof. exact (eq_sym (known_length l)). Qed.
Lemma selected_count {A} (P : A -> Prop) (f : A -> bool) l l' : (forall x, In x l -> (f x = true <-> P x)) -> selected P l l' -> l' = filter f l.
Proof.
  intros H S. induction S as [|x l l' Px S IH|x l l' Px S IH]; cbn; auto.
  - rewrite (proj2 (H x (or_introl eq_refl)) Px). f_equal. apply IH. intros; apply H; right; auto.
  - destruct (f x) eqn:E; [exfalso; apply Px; apply (H x (or_introl eq_refl)); exact E|]. apply IH. intros; apply H; right; auto.
Qed.

Lemma total_drop l : total l == qsum (drop_nan l).
Proof. induction l as [|[x|] l IH]; cbn; [reflexivity| |exact IH]. change (fold_right Qplus 0 (drop_nan l)) with (qsum (drop_nan l)). rewrite IH. reflexivity. Qed.

Section Decision.
Variables (d : data) (n : nat) (m : list Q) (t : Q).
Hypothesis Rect : forall p, In p d -> List.length (p_vals p) = n.
Hypothesis Mean : mean_vector d n m.
Let means := map (fun i => match drop_nan (column i d) with [] => None | l => Some (qmean l) end) (seq 0 n).
Lemma all_means : (exists p, In p d /\ full p = true) -> exists ms, means = map Some ms /\ Forall2 Qeq ms m.
Proof.
  intros (p & I & F). destruct Mean as [Lm Mn]. unfold means.
  assert (X : forall i, (i < n)%nat -> exists q, match drop_nan (column i d) with [] => None | l => Some (qmean l) end = Some q /\ forall x, nth_error m i = Some x -> q == x).
  { intros i Hi. apply full_vector in F as (v & V). unfold vector_is in V.
    assert (Lv : List.length v = n) by (rewrite <- (map_length Some), <- V; apply Rect; exact I).
    destruct (nth_error v i) as [y|] eqn:Ey; [|apply nth_error_None in Ey; lia].
    assert (Iy : In (Some y) (column i d)).
    { unfold column. apply in_map_iff. exists p. split; [|exact I]. rewrite V. apply nth_error_nth. rewrite nth_error_map, Ey. reflexivity. }
    assert (Ne : drop_nan (column i d) <> []).
    { intros E. assert (In y (drop_nan (column i d))); [|rewrite E in H; destruct H]. unfold drop_nan. apply in_flat_map. exists (Some y). split; [exact Iy|left; reflexivity]. }
    destruct (drop_nan (column i d)) as [|z l] eqn:E; [contradiction|]. eexists. split; [reflexivity|]. intros x Hx. specialize (Mn i x Hx).
    fold (column i d) in Mn. rewrite total_drop, known_drop, E in Mn. unfold qmean, qlen.
    assert (P : 0 < inject_Z (Z.of_nat (List.length (z :: l)))) by (change 0 with (inject_Z 0); rewrite <- Zlt_Qlt; cbn [List.length]; lia).
    rewrite <- Mn. field. lra. }
  clear Mn. set (g := fun i => match drop_nan (column i d) with [] => None | l => Some (qmean l) end) in *.
  assert (X' : forall i, (i < n)%nat -> exists q, g i = Some q /\ forall x, nth_error m i = Some x -> q == x) by exact X. clear X. rename X' into X. clearbody g. clear means.
  assert (Y : forall k off m', List.length m' = k -> (forall i x, nth_error m' i = Some x -> exists q, g (off + i)%nat = Some q /\ q == x) ->
    exists ms, map g (seq off k) = map Some ms /\ Forall2 Qeq ms m').
  { induction k as [|k IH]; intros off [|x m'] L H; try discriminate; [exists []; split; [reflexivity|constructor]|].
    destruct (H 0%nat x eq_refl) as (q & G & Q'). rewrite Nat.add_0_r in G. injection L as L.
    destruct (IH (S off) m' L) as (ms & E & F'). { intros i y Hy. destruct (H (S i) y Hy) as (q' & G' & Q''). exists q'. split; [|exact Q'']. rewrite <- G'. f_equal. lia. }
    exists (q :: ms). cbn. rewrite G, E. split; [reflexivity|constructor; assumption]. }
  apply (Y n 0%nat m Lm). intros i x Hx. cbn. destruct (X i) as (q & G & Q'); [rewrite <- Lm; apply nth_error_Some; congruence|]. exists q. split; [exact G|exact (Q' x Hx)].
Qed.
Lemma flow_known : drop_nan (map (dmag2 means) d) = drop_nan (map (dmag2 means) (filter full d)) /\
  List.length (drop_nan (map (dmag2 means) d)) = List.length (filter full d) /\
  List.length (filter (norm_over t) (drop_nan (map (dmag2 means) d))) = List.length (filter (fun p => full p && match dmag2 means p with Some q => norm_over t q | None => false end) d).
Proof.
  assert (Lm : List.length means = n) by (unfold means; rewrite map_length, seq_length; reflexivity).
  destruct (existsb full d) eqn:Ex.
  - apply existsb_exists in Ex. destruct (all_means Ex) as (ms & E & F2). clear Ex.
    assert (Ls : List.length ms = n) by (rewrite <- Lm, E, map_length; reflexivity).
    assert (G : forall p, In p d -> full p = true -> exists q, dmag2 means p = Some q).
    { intros p I F. pose proof F as F'. apply full_vector in F' as (v & V). rewrite E. destruct (dmag2_some ms p v V) as (q & Eq & _); [|eauto].
      rewrite Ls, <- (Rect p I). rewrite V, map_length. reflexivity. }
    assert (N : forall p, In p d -> full p = false -> dmag2 means p = None).
    { intros p I F. apply dmag2_none; [exact F|]. rewrite Lm. symmetry. apply Rect. exact I. }
    clearbody means. clear - G N. induction d as [|p l IH]; [repeat split|].
    destruct IH as (I1 & I2 & I3). { intros p' I; apply G; right; exact I. } { intros p' I; apply N; right; exact I. }
    cbn [map filter]. destruct (full p) eqn:F.
    + destruct (G p (or_introl eq_refl) F) as (q & E). cbn [map]. rewrite E. cbn [drop_nan flat_map app]. fold (drop_nan (map (dmag2 means) l)). fold (drop_nan (map (dmag2 means) (filter full l))).
      cbn [andb filter List.length]. split; [congruence|]. split; [lia|]. destruct (norm_over t q); cbn [List.length]; lia.
    + rewrite (N p (or_introl eq_refl) F). cbn [drop_nan flat_map app andb]. split; [exact I1|]. split; assumption.
  - assert (N : forall p, In p d -> full p = false). { intros p I. destruct (full p) eqn:F; [|reflexivity]. rewrite <- Ex. symmetry. apply existsb_exists. eauto. }
    assert (N2 : forall p, In p d -> dmag2 means p = None). { intros p I. apply dmag2_none; [auto|]. rewrite Lm. symmetry. apply Rect. exact I. }
    clearbody means. clear - N N2. induction d as [|p l IH]; [repeat split|]. destruct IH as (I1 & I2 & I3). { intros p' I; apply N; right; exact I. } { intros p' I; apply N2; right; exact I. }
    cbn [map filter]. rewrite (N p (or_introl eq_refl)), (N2 p (or_introl eq_refl)). cbn [drop_nan flat_map app andb]. split; [exact I1|]. split; assumption.
Qed.
Lemma far_spec p : In p d -> (full p && match dmag2 means p with Some q => norm_over t q | None => false end = true <-> far t m p).
Proof.
  intros I. rewrite andb_true_iff. split.
  - intros [F H]. pose proof F as F'. apply full_vector in F' as (v & V). exists v. split; [exact V|].
    destruct all_means as (ms & E & F2); [eauto|]. destruct (dmag2_some ms p v V) as (q & Eq & Q').
    { rewrite <- (map_length Some ms), <- E. unfold means. rewrite map_length, seq_length, <- (Rect p I), V, map_length. reflexivity. }
    rewrite E, Eq in H. apply norm_over_spec in H. rewrite Q', (distance2_eq v _ _ F2) in H. exact H.
  - intros (v & V & H). assert (F : full p = true) by (apply full_vector; eauto). split; [exact F|].
    destruct all_means as (ms & E & F2); [eauto|]. destruct (dmag2_some ms p v V) as (q & Eq & Q').
    { rewrite <- (map_length Some ms), <- E. unfold means. rewrite map_length, seq_length, <- (Rect p I), V, map_length. reflexivity. }
    rewrite E, Eq. apply norm_over_spec. rewrite Q', (distance2_eq v _ _ F2). exact H.
Qed.
End Decision.

Theorem vector_hom : forall min_dp whole b c d n m known_pts far_pts, (long_min b < long_max b)%Q -> times_ok (time_range b) ->
  selected (belongs b) whole d -> (forall p, In p d -> List.length (p_vals p) = n) -> mean_vector d n m ->
  selected (fun p => exists v, vector_is p v) d known_pts -> selected (far (c_threshold c) m) d far_pts ->
  let f := qlen far_pts / qlen known_pts in
  ((Z.of_nat (List.length d) < min_dp)%Z \/ known_pts = [] -> vector_hom_dmag min_dp whole b c = CLR) /\
  ((min_dp <= Z.of_nat (List.length d))%Z -> known_pts <> [] ->
   (f <= c_lower c -> vector_hom_dmag min_dp whole b c = CLR) /\
   (c_lower c < f -> c_upper c <= f -> vector_hom_dmag min_dp whole b c = if c_lock c then HOM else CLR) /\
   (c_lower c < f -> f < c_upper c -> vector_hom_dmag min_dp whole b c = HET)).
Proof.
  intros min_dp whole b c d n m kp fp Lb T S R Mn Sk Sf f. unfold vector_hom_dmag.
  rewrite <- (selected_unique _ _ _ _ S (df_trim_selects b whole Lb T)). cbv zeta.
  assert (Ek : kp = filter full d) by (apply (selected_count _ full _ _ (fun p _ => full_vector p) Sk)).
  destruct d as [|p0 d0] eqn:Ed.
  { subst kp. cbn [filter List.length map seq all_nan forallb]. split; [intros _; destruct (_ <? _)%Z; reflexivity|]. intros _ H. contradiction. }
  rewrite <- Ed in *. replace (List.length (p_vals p0)) with n by (symmetry; apply R; rewrite Ed; left; reflexivity).
  set (means := map (fun i => match drop_nan (column i d) with [] => None | l => Some (qmean l) end) (seq 0 n)).
  destruct (flow_known d n m (c_threshold c) R Mn) as (_ & K1 & K2). fold means in K1, K2.
  assert (Ef : fp = filter (fun p => full p && match dmag2 means p with Some q => norm_over (c_threshold c) q | None => false end) d).
  { apply (selected_count _ _ _ _ (fun p I => far_spec d n m (c_threshold c) R Mn p I) Sf). }
  assert (An : all_nan (map (dmag2 means) d) = true <-> kp = []).
  { rewrite Ek. rewrite <- (length_zero_iff_nil (filter full d)), <- K1. generalize (map (dmag2 means) d). clear. induction l as [|[q|] l IH]; cbn; [split; reflexivity|split; discriminate|exact IH]. }
  split.
  - intros [H|H]; [destruct (Z.ltb_spec (Z.of_nat (List.length d)) min_dp); [reflexivity|lia]|]. rewrite (proj2 An H). destruct (_ <? _)%Z; reflexivity.
  - intros H Ne. destruct (Z.ltb_spec (Z.of_nat (List.length d)) min_dp); [lia|].
    destruct (all_nan _) eqn:E; [exfalso; apply Ne, An; reflexivity|].
    replace (qlen (filter (norm_over (c_threshold c)) (drop_nan (map (dmag2 means) d))) / qlen (drop_nan (map (dmag2 means) d))) with f.
    2: { unfold f, qlen. rewrite Ef, Ek, K1, K2. reflexivity. }
    unfold classify. split; [|split]; intros.
    + destruct (qleb_spec f (c_lower c)); auto. contradiction.
    + destruct (qleb_spec f (c_lower c)); [exfalso; lra|]. destruct (qleb_spec (c_upper c) f); auto. contradiction.
    + destruct (qleb_spec f (c_lower c)); [exfalso; lra|]. destruct (qleb_spec (c_upper c) f); auto. exfalso; lra.
Qed.
Lemma mean_exists d n : exists m, mean_vector d n m.
Proof.
  exists (map (fun i => qmean (drop_nan (column i d))) (seq 0 n)). split; [rewrite map_length, seq_length; reflexivity|].
  intros i q H. fold (column i d). rewrite nth_error_map in H. destruct (nth_error (seq 0 n) i) as [j|] eqn:E; [|discriminate]. injection H as <-.
  assert (Li : (i < n)%nat) by (rewrite <- (seq_length n 0); apply nth_error_Some; congruence).
  pose proof (nth_error_nth _ _ 0%nat E) as N. rewrite seq_nth in N by exact Li. cbn in N. subst j.
  rewrite total_drop, known_drop. destruct (drop_nan (column i d)) as [|z l] eqn:Ed; [reflexivity|]. unfold qmean, qlen.
  assert (P : 0 < inject_Z (Z.of_nat (List.length (z :: l)))) by (change 0 with (inject_Z 0); rewrite <- Zlt_Qlt; cbn [List.length]; lia).
  field. lra.
Qed.
Lemma selected_filter {A} (P : A -> Prop) (f : A -> bool) l : (forall x, In x l -> (f x = true <-> P x)) -> selected P l (filter f l).
Proof.
  induction l as [|x l IH]; intros H; cbn; [constructor|]. specialize (IH (fun y I => H y (or_intror I))).
  destruct (f x) eqn:E; constructor; auto; [apply H; [left; reflexivity|exact E]|]. intros Px. apply (H x (or_introl eq_refl)) in Px. congruence.
Qed.
Theorem vector_answered : forall min_dp whole b c d n h, (long_min b < long_max b)%Q -> times_ok (time_range b) ->
  selected (belongs b) whole d -> (forall p, In p d -> List.length (p_vals p) = n) ->
  (vector_answer min_dp c n d h <-> h = vector_hom_dmag min_dp whole b c).
Proof.
  intros min_dp whole b c d n h L T S R. split.
  - intros (m & kp & fp & M & Sk & Sf & H). destruct (vector_hom min_dp whole b c d n m kp fp L T S R M Sk Sf) as [H1 H2]. cbv zeta in H, H2. unfold qlen in *.
    destruct H as [[H ->]|[[H3 H4] [[H ->]|[[H ->]|[H ->]]]]]; symmetry; [apply H1; exact H| | |]; destruct (H2 H3 H4) as (G1 & G2 & G3); [apply G1|apply G2|apply G3]; tauto.
  - intros ->. destruct (mean_exists d n) as (m & M). exists m.
    assert (Sk : exists kp, selected (fun p => exists v, vector_is p v) d kp) by (eexists; apply (selected_filter _ full d (fun p _ => full_vector p))).
    assert (Sf : exists fp, selected (far (c_threshold c) m) d fp) by (eexists; apply (selected_filter _ _ d (fun p I => far_spec d n m (c_threshold c) R M p I))).
    destruct Sk as (kp & Sk), Sf as (fp & Sf). exists kp, fp. split; [exact M|]. split; [exact Sk|]. split; [exact Sf|].
    destruct (vector_hom min_dp whole b c d n m _ _ L T S R M Sk Sf) as [H1 H2]. cbv zeta in *. unfold qlen in *.
    destruct (Z_lt_le_dec (Z.of_nat (List.length d)) min_dp) as [Hl|Hl]; [left; split; [left; exact Hl|apply H1; left; exact Hl]|].
    destruct kp as [|k kp]; [left; split; [right; reflexivity|apply H1; right; reflexivity]|]. right.
    assert (Ne : k :: kp <> []) by discriminate. split; [auto|]. destruct (H2 Hl Ne) as (G1 & G2 & G3).
    destruct (Qlt_le_dec (c_lower c) (inject_Z (Z.of_nat (List.length fp)) / inject_Z (Z.of_nat (List.length (k :: kp))))) as [Q1|Q1]; [right|left; split; [exact Q1|apply G1; exact Q1]].
    destruct (Qlt_le_dec (inject_Z (Z.of_nat (List.length fp)) / inject_Z (Z.of_nat (List.length (k :: kp)))) (c_upper c)) as [Q2|Q2]; [right|left]; (split; [split; assumption|]); [apply G3|apply G2]; assumption.
Qed.
