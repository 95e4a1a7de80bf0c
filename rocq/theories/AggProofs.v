(** Homogeneity answers and aggregated values. *)
From Verif Require Import Base Geo Graph Cell Loaders Builder Spec MeshSpec DataSpec QLib TrimProofs.
Open Scope Z_scope.

(** ** Fractions *)
Lemma known_length l : Z.of_nat (List.length (drop_nan l)) = known l.
Proof. induction l as [|[q|] l IH]; cbn [drop_nan flat_map app known List.length]; auto. fold (drop_nan l). lia. Qed.
Lemma over_length t l : Z.of_nat (List.length (filter (qltb t) (drop_nan l))) = over t l.
Proof.
  induction l as [|[q|] l IH]; cbn [drop_nan flat_map app over filter]; auto. fold (drop_nan l).
  destruct (qltb_spec t q), (Qlt_le_dec t q); cbn [List.length]; try lia; exfalso; lra.
Qed.
Lemma frac_over_spec t l : frac_over t l = fraction_over t l.
Proof.
  unfold frac_over, fraction_over. pose proof (known_length l) as K. pose proof (over_length t l) as O.
  destruct (drop_nan l) as [|q vs] eqn:E.
  - cbn in K. rewrite <- K. reflexivity.
  - unfold qlen. rewrite K, O. destruct (Z.eqb_spec (known l) 0) as [Z0|]; auto. exfalso. rewrite Z0 in K. cbn in K. lia.
Qed.

Theorem scalar_hom_enough min_dp c dps : min_dp <= Z.of_nat (List.length dps) ->
  let f := fraction_over (c_threshold c) dps in
  ((f <= c_lower c)%Q -> scalar_hom min_dp c dps = CLR) /\
  ((c_lower c < f)%Q -> (c_upper c <= f)%Q -> scalar_hom min_dp c dps = if c_lock c then HOM else CLR) /\
  ((c_lower c < f)%Q -> (f < c_upper c)%Q -> scalar_hom min_dp c dps = HET).
Proof.
  intros H f. unfold scalar_hom. destruct (Z.ltb_spec (Z.of_nat (List.length dps)) min_dp); [lia|].
  rewrite frac_over_spec. fold f. unfold classify. split; [|split]; intros.
  - destruct (qleb_spec f (c_lower c)); auto. contradiction.
  - destruct (qleb_spec f (c_lower c)); [exfalso; lra|]. destruct (qleb_spec (c_upper c) f); auto. contradiction.
  - destruct (qleb_spec f (c_lower c)); [exfalso; lra|]. destruct (qleb_spec (c_upper c) f); auto. exfalso; lra.
Qed.
Theorem scalar_hom_few min_dp c dps : Z.of_nat (List.length dps) < min_dp -> scalar_hom min_dp c dps = CLR.
Proof. intros H. unfold scalar_hom. destruct (Z.ltb_spec (Z.of_nat (List.length dps)) min_dp); auto; lia. Qed.
Theorem scalar_hom_never_min min_dp c dps : scalar_hom min_dp c dps <> MIN.
Proof.
  unfold scalar_hom, classify. destruct (_ <? _); [discriminate|]. destruct (qleb _ _); [discriminate|].
  destruct (qleb _ _); [destruct (c_lock c); discriminate|discriminate].
Qed.
Theorem vector_hom_never_min min_dp whole b c : vector_hom_dmag min_dp whole b c <> MIN.
Proof.
  unfold vector_hom_dmag, classify. cbv zeta. destruct (_ <? _); [discriminate|]. destruct (all_nan _); [discriminate|].
  destruct (qleb _ _); [discriminate|]. destruct (qleb _ _); [destruct (c_lock c); discriminate|discriminate].
Qed.
Lemma fraction_range t l : (0 <= fraction_over t l <= 1)%Q.
Proof.
  unfold fraction_over. assert (0 <= over t l <= known l).
  { induction l as [|[q|] l IH]; cbn [over known]; try lia. destruct (Qlt_le_dec t q); lia. }
  destruct (Z.eqb_spec (known l) 0); [lra|].
  assert (0 < inject_Z (known l))%Q by (change 0%Q with (inject_Z 0); rewrite <- Zlt_Qlt; lia).
  split.
  - apply Qle_shift_div_l; auto. rewrite Qmult_0_l. change 0%Q with (inject_Z 0). rewrite <- Zle_Qle. lia.
  - apply Qle_shift_div_r; auto. rewrite Qmult_1_l. rewrite <- Zle_Qle. lia.
Qed.

(** ** Sums *)
Lemma qsum_bounds l lo hi : (forall x, In x l -> lo <= x <= hi)%Q -> (qlen l * lo <= qsum l <= qlen l * hi)%Q.
Proof.
  unfold qlen, qsum. induction l as [|x l IH]; intros H.
  - cbn [List.length fold_right]. change (inject_Z (Z.of_nat 0)) with 0%Q. lra.
  - assert (IHl := IH (fun y Hy => H y (or_intror Hy))). pose proof (H x (or_introl eq_refl)) as Hx.
    cbn [List.length fold_right]. rewrite Nat2Z.inj_succ, <- Z.add_1_r, inject_Z_plus.
    change (inject_Z 1) with 1%Q. set (n := inject_Z (Z.of_nat (List.length l))) in *.
    set (s := fold_right Qplus 0%Q l) in *.
    assert ((n + 1) * lo == n * lo + lo)%Q by ring. assert ((n + 1) * hi == n * hi + hi)%Q by ring. lra.
Qed.
Lemma qlen_pos {A} (l : list A) : l <> [] -> (0 < qlen l)%Q.
Proof. destruct l; [contradiction|]. intros _. unfold qlen. change 0%Q with (inject_Z 0). rewrite <- Zlt_Qlt. cbn. lia. Qed.
Lemma qmean_bounds l lo hi : l <> [] -> (forall x, In x l -> lo <= x <= hi)%Q -> (lo <= qmean l <= hi)%Q.
Proof.
  intros N H. pose proof (qlen_pos l N) as P. destruct (qsum_bounds l lo hi H) as [A B]. unfold qmean.
  split; [apply Qle_shift_div_l|apply Qle_shift_div_r]; auto; rewrite Qmult_comm; auto.
Qed.

(** ** Minimum and maximum *)
Lemma fold_min l x : In (fold_left qmin2 l x) (x :: l) /\ (forall y, In y (x :: l) -> fold_left qmin2 l x <= y)%Q.
Proof.
  revert x. induction l as [|z l IH]; intros x; cbn [fold_left].
  - split; [left; auto|]. intros y [->|[]]. lra.
  - destruct (IH (qmin2 x z)) as [A B]. unfold qmin2 in *. destruct (qltb_spec z x) as [L|L]; split.
    + destruct A as [A|A]; [right; left; auto|right; right; auto].
    + intros y [->|[->|Hy]].
      * pose proof (B z (or_introl eq_refl)). lra.
      * apply B. left; auto.
      * apply B. right; auto.
    + destruct A as [A|A]; [left; auto|right; right; auto].
    + intros y [->|[->|Hy]].
      * apply B. left; auto.
      * pose proof (B x (or_introl eq_refl)). lra.
      * apply B. right; auto.
Qed.
Lemma fold_max l x : In (fold_left qmax2 l x) (x :: l) /\ (forall y, In y (x :: l) -> y <= fold_left qmax2 l x)%Q.
Proof.
  revert x. induction l as [|z l IH]; intros x; cbn [fold_left].
  - split; [left; auto|]. intros y [->|[]]. lra.
  - destruct (IH (qmax2 x z)) as [A B]. unfold qmax2 in *. destruct (qltb_spec x z) as [L|L]; split.
    + destruct A as [A|A]; [right; left; auto|right; right; auto].
    + intros y [->|[->|Hy]].
      * pose proof (B z (or_introl eq_refl)). lra.
      * apply B. left; auto.
      * apply B. right; auto.
    + destruct A as [A|A]; [left; auto|right; right; auto].
    + intros y [->|[->|Hy]].
      * apply B. left; auto.
      * pose proof (B x (or_introl eq_refl)). lra.
      * apply B. right; auto.
Qed.
Lemma qmin_list_spec l : l <> [] -> In (qmin_list l) l /\ (forall y, In y l -> qmin_list l <= y)%Q.
Proof. destruct l as [|x l]; [contradiction|]. intros _. apply fold_min. Qed.
Lemma qmax_list_spec l : l <> [] -> In (qmax_list l) l /\ (forall y, In y l -> y <= qmax_list l)%Q.
Proof. destruct l as [|x l]; [contradiction|]. intros _. apply fold_max. Qed.

(** ** Sorting and the median *)
Lemma qinsert_perm x l : Permutation (x :: l) (qinsert x l).
Proof.
  induction l as [|y l IH]; cbn; auto. destruct (qleb x y); auto.
  eapply Permutation_trans; [apply perm_swap|]. constructor. auto.
Qed.
Lemma qsort_perm l : Permutation l (qsort l).
Proof.
  induction l as [|x l IH]; cbn; auto. eapply Permutation_trans; [|apply qinsert_perm]. constructor. auto.
Qed.
Lemma qsort_length l : List.length (qsort l) = List.length l.
Proof. symmetry. apply Permutation_length, qsort_perm. Qed.

Definition samel := Forall2 Qeq.
Lemma samel_refl l : samel l l.
Proof. induction l; constructor; auto. reflexivity. Qed.
Lemma samel_trans l1 l2 l3 : samel l1 l2 -> samel l2 l3 -> samel l1 l3.
Proof.
  intros H. revert l3. induction H as [|x y l l' E F IH]; intros l3 H3; inversion H3; subst; constructor.
  - etransitivity; eauto.
  - apply IH; auto.
Qed.
Lemma qinsert_same x x' l l' : (x == x')%Q -> samel l l' -> samel (qinsert x l) (qinsert x' l').
Proof.
  intros E H. induction H as [|y y' l l' Ey F IH]; cbn.
  - repeat constructor; auto.
  - rewrite (qleb_comp x x' y y') by auto. destruct (qleb x' y').
    + repeat constructor; auto.
    + constructor; auto.
Qed.
Lemma qinsert_comm x y l : samel (qinsert x (qinsert y l)) (qinsert y (qinsert x l)).
Proof.
  induction l as [|z l IH].
  - cbn. destruct (qleb_spec x y), (qleb_spec y x); try (exfalso; lra); try apply samel_refl.
    repeat constructor; lra.
  - cbn. destruct (qleb_spec y z) as [A|A], (qleb_spec x z) as [B|B]; cbn [qinsert].
    + destruct (qleb_spec x y), (qleb_spec y x); try (exfalso; lra); try (repeat constructor; try lra; apply samel_refl).
      * destruct (qleb_spec y z); [|contradiction]. apply samel_refl.
      * destruct (qleb_spec x z); [|contradiction]. apply samel_refl.
    + destruct (qleb_spec x y); [exfalso; lra|]. destruct (qleb_spec x z); [contradiction|].
      destruct (qleb_spec y z); [|contradiction]. apply samel_refl.
    + destruct (qleb_spec x z); [|contradiction]. destruct (qleb_spec y x); [exfalso; lra|].
      destruct (qleb_spec y z); [contradiction|]. apply samel_refl.
    + destruct (qleb_spec x z); [contradiction|]. destruct (qleb_spec y z); [contradiction|].
      constructor; [reflexivity|exact IH].
Qed.
Lemma qsort_same l l' : Permutation l l' -> samel (qsort l) (qsort l').
Proof.
  induction 1 as [|x l l' P IH|x y l|l l' l'' P1 IH1 P2 IH2]; cbn.
  - constructor.
  - apply qinsert_same; auto. reflexivity.
  - apply qinsert_comm.
  - eapply samel_trans; eauto.
Qed.
Lemma samel_nth l l' n : samel l l' -> (nth n l 0 == nth n l' 0)%Q.
Proof. intros H. revert n. induction H; intros [|n]; cbn; auto; try reflexivity. Qed.

Lemma qsort_nth_in l n : (n < List.length l)%nat -> In (nth n (qsort l) 0%Q) l.
Proof.
  intros H. eapply Permutation_in; [apply Permutation_sym, qsort_perm|]. apply nth_In. rewrite qsort_length. auto.
Qed.
Lemma qmedian_bounds l lo hi : l <> [] -> (forall x, In x l -> lo <= x <= hi)%Q -> (lo <= qmedian l <= hi)%Q.
Proof.
  intros N H. assert (Pl : (0 < List.length l)%nat) by (destruct l; [contradiction|cbn; lia]).
  unfold qmedian. set (n := List.length l) in *.
  assert (D : (n / 2 < n)%nat) by (apply Nat.div_lt; lia).
  destruct (Nat.even n).
  - pose proof (H _ (qsort_nth_in l (n / 2) D)) as A.
    pose proof (H _ (qsort_nth_in l (n / 2 - 1) ltac:(unfold n in *; lia))) as B.
    split; [apply Qle_shift_div_l|apply Qle_shift_div_r]; lra.
  - apply H. apply qsort_nth_in; auto.
Qed.

(** ** Permutations *)
Lemma qsum_perm l l' : Permutation l l' -> (qsum l == qsum l')%Q.
Proof. unfold qsum. induction 1; cbn [fold_right]; try reflexivity; lra. Qed.
Lemma qlen_perm {A} (l l' : list A) : Permutation l l' -> qlen l = qlen l'.
Proof. intros H. unfold qlen. rewrite (Permutation_length H). auto. Qed.
Lemma qmean_perm l l' : Permutation l l' -> (qmean l == qmean l')%Q.
Proof. intros H. unfold qmean. rewrite (qlen_perm _ _ H). rewrite (qsum_perm _ _ H). reflexivity. Qed.
Lemma qmin_perm l l' : Permutation l l' -> (qmin_list l == qmin_list l')%Q.
Proof.
  intros H. destruct l as [|x l].
  - apply Permutation_nil in H. subst. reflexivity.
  - assert (N' : l' <> []) by (intros ->; apply Permutation_sym, Permutation_nil in H; discriminate).
    destruct (qmin_list_spec (x :: l)) as [A B]; [discriminate|]. destruct (qmin_list_spec l' N') as [A' B'].
    pose proof (B _ (Permutation_in _ (Permutation_sym H) A')). pose proof (B' _ (Permutation_in _ H A)). lra.
Qed.
Lemma qmax_perm l l' : Permutation l l' -> (qmax_list l == qmax_list l')%Q.
Proof.
  intros H. destruct l as [|x l].
  - apply Permutation_nil in H. subst. reflexivity.
  - assert (N' : l' <> []) by (intros ->; apply Permutation_sym, Permutation_nil in H; discriminate).
    destruct (qmax_list_spec (x :: l)) as [A B]; [discriminate|]. destruct (qmax_list_spec l' N') as [A' B'].
    pose proof (B _ (Permutation_in _ (Permutation_sym H) A')). pose proof (B' _ (Permutation_in _ H A)). lra.
Qed.
Lemma qmedian_perm l l' : Permutation l l' -> (qmedian l == qmedian l')%Q.
Proof.
  intros H. unfold qmedian. rewrite (Permutation_length H).
  pose proof (fun n => samel_nth _ _ n (qsort_same _ _ H)) as X.
  destruct (Nat.even (List.length l')); [|apply X]. rewrite (X (List.length l' / 2 - 1)%nat), (X (List.length l' / 2)%nat). reflexivity.
Qed.
Lemma sq_dev_perm l l' : Permutation l l' -> (sq_dev l == sq_dev l')%Q.
Proof.
  intros H. unfold sq_dev.
  assert (E : forall (m m' : Q) k, (m == m')%Q -> (qsum (map (fun x => (x - m) * (x - m)) k) == qsum (map (fun x => (x - m') * (x - m')) k))%Q).
  { intros m m' k Em. induction k as [|y k IH]; cbn; [reflexivity|]. fold (qsum (map (fun x => (x - m) * (x - m))%Q k)) (qsum (map (fun x => (x - m') * (x - m'))%Q k)).
    rewrite IH, Em. reflexivity. }
  rewrite (E _ _ l (qmean_perm _ _ H)). apply qsum_perm, Permutation_map. auto.
Qed.
Lemma drop_nan_perm l l' : Permutation l l' -> Permutation (drop_nan l) (drop_nan l').
Proof. apply Permutation_flat_map. Qed.
Lemma existsb_perm {A} (f : A -> bool) l l' : Permutation l l' -> existsb f l = existsb f l'.
Proof. induction 1; cbn; congruence || (try (destruct (f x), (f y); auto)). Qed.
Lemma forallb_perm {A} (f : A -> bool) l l' : Permutation l l' -> forallb f l = forallb f l'.
Proof. induction 1; cbn; congruence || (try (destruct (f x), (f y); auto)). Qed.
Lemma all_nan_drop l : all_nan l = false -> drop_nan l <> [].
Proof. induction l as [|[q|] l IH]; cbn; auto; discriminate. Qed.

Lemma reduce_perm skipna (f : list Q -> option Q) l l' : Permutation l l' ->
  (forall k k', Permutation k k' -> same_value (Ok (f k)) (Ok (f k'))) -> same_value (Ok (reduce skipna f l)) (Ok (reduce skipna f l')).
Proof.
  intros P H. unfold reduce. pose proof (H _ _ (drop_nan_perm _ _ P)) as X.
  destruct skipna; auto. unfold has_nan. rewrite (existsb_perm _ _ _ P). destruct (existsb _ l'); auto. cbn. auto.
Qed.

Definition sqrt_ok (sqrt : Q -> Q) : Prop := forall a b, (a == b)%Q -> (sqrt a == sqrt b)%Q.

Theorem value_df_perm sqrt agg skipna l l' : sqrt_ok sqrt -> Permutation l l' ->
  same_value (value_df sqrt agg skipna l) (value_df sqrt agg skipna l').
Proof.
  intros Hs P0. unfold value_df.
  assert (P : Permutation (if skipna then map Some (drop_nan l) else l) (if skipna then map Some (drop_nan l') else l')).
  { destruct skipna; auto. apply Permutation_map, drop_nan_perm; auto. }
  set (k := if skipna then map Some (drop_nan l) else l) in *. set (k' := if skipna then map Some (drop_nan l') else l') in *.
  clearbody k k'. cbv zeta.
  rewrite <- (qlen_perm _ _ P), <- (Permutation_length P). unfold all_nan. rewrite <- (forallb_perm _ _ _ P).
  destruct (String.eqb agg "COUNT"); [cbn; reflexivity|]. destruct (Nat.eqb _ 0); [cbn; auto|].
  destruct (forallb _ k); [cbn; auto|].
  destruct (String.eqb agg "MIN"); [apply reduce_perm; auto; intros; cbn; apply qmin_perm; auto|].
  destruct (String.eqb agg "MAX"); [apply reduce_perm; auto; intros; cbn; apply qmax_perm; auto|].
  destruct (String.eqb agg "MEAN"); [apply reduce_perm; auto; intros; cbn; apply qmean_perm; auto|].
  destruct (String.eqb agg "MEDIAN"); [apply reduce_perm; auto; intros; cbn; apply qmedian_perm; auto|].
  destruct (String.eqb agg "STD"); [|cbn; auto]. apply reduce_perm; auto. intros a b Hab. cbn.
  rewrite (Permutation_length Hab). destruct (Nat.eqb _ 1); auto.
  apply Hs. rewrite (qlen_perm _ _ Hab), (sq_dev_perm _ _ Hab). reflexivity.
Qed.
Theorem value_xr_perm sqrt agg skipna l l' : sqrt_ok sqrt -> Permutation l l' ->
  same_value (value_xr sqrt agg skipna l) (value_xr sqrt agg skipna l').
Proof.
  intros Hs P. unfold value_xr.
  rewrite <- (qlen_perm _ _ P), <- (Permutation_length P). unfold all_nan. rewrite <- (forallb_perm _ _ _ P).
  destruct (String.eqb agg "COUNT"); [cbn; reflexivity|]. destruct (Nat.eqb _ 0); [cbn; auto|].
  destruct (forallb _ l); [cbn; auto|].
  destruct (String.eqb agg "MIN"); [apply reduce_perm; auto; intros; cbn; apply qmin_perm; auto|].
  destruct (String.eqb agg "MAX"); [apply reduce_perm; auto; intros; cbn; apply qmax_perm; auto|].
  destruct (String.eqb agg "MEAN"); [apply reduce_perm; auto; intros; cbn; apply qmean_perm; auto|].
  destruct (String.eqb agg "MEDIAN"); [apply reduce_perm; auto; intros; cbn; apply qmedian_perm; auto|].
  assert (X : same_value (Ok (reduce skipna (fun l0 => Some (sqrt (sq_dev l0 / qlen l0)%Q)) l)) (Ok (reduce skipna (fun l0 => Some (sqrt (sq_dev l0 / qlen l0)%Q)) l'))).
  { apply reduce_perm; auto. intros a b Hab. cbn. apply Hs. rewrite (qlen_perm _ _ Hab), (sq_dev_perm _ _ Hab). reflexivity. }
  destruct (String.eqb agg "STD"); [exact X|]. destruct (String.eqb agg "RMSE"); [exact X|cbn; auto].
Qed.

(** ** Bounds *)
Lemma drop_nan_some l : drop_nan (map Some l) = l.
Proof. induction l; cbn; [auto|]. fold (drop_nan (map Some l)). congruence. Qed.
Lemma drop_nan_In l x : In x (drop_nan l) <-> In (Some x) l.
Proof.
  unfold drop_nan. rewrite in_flat_map. split.
  - intros ([q|] & H & Hx); cbn in Hx; [destruct Hx as [->|[]]; auto|destruct Hx].
  - intros H. exists (Some x). split; auto. left; auto.
Qed.
Lemma all_nan_some l : l <> [] -> all_nan (map Some l) = false.
Proof. destruct l; [contradiction|]. auto. Qed.

(** The values returned for a set with at least one known value. *)
Definition returns (r : res (option Q)) (v : Q) : Prop := r = Ok (Some v).

Theorem value_bounds (from_xr : bool) sqrt l x : In (Some x) l ->
  let value agg := if from_xr then value_xr sqrt agg true l else value_df sqrt agg true l in
  exists mn mean med mx,
    value "MIN"%string = Ok (Some mn) /\ value "MEAN"%string = Ok (Some mean) /\
    value "MEDIAN"%string = Ok (Some med) /\ value "MAX"%string = Ok (Some mx) /\
    In (Some mn) l /\ In (Some mx) l /\
    (forall y, In (Some y) l -> mn <= y <= mx)%Q /\ (mn <= mean <= mx)%Q /\ (mn <= med <= mx)%Q.
Proof.
  intros Hx value. assert (N : drop_nan l <> []).
  { intros E. apply drop_nan_In in Hx. rewrite E in Hx. destruct Hx. }
  destruct (qmin_list_spec _ N) as [A B]. destruct (qmax_list_spec _ N) as [A' B'].
  assert (Bd : forall y, In y (drop_nan l) -> (qmin_list (drop_nan l) <= y <= qmax_list (drop_nan l))%Q) by auto.
  exists (qmin_list (drop_nan l)), (qmean (drop_nan l)), (qmedian (drop_nan l)), (qmax_list (drop_nan l)).
  assert (V : forall agg f, (agg = "MIN" /\ f = qmin_list \/ agg = "MEAN" /\ f = qmean \/ agg = "MEDIAN" /\ f = qmedian \/ agg = "MAX" /\ f = qmax_list)%string ->
     value agg = Ok (Some (f (drop_nan l)))).
  { intros agg f H. unfold value. destruct from_xr.
    - unfold value_xr. assert (L : Nat.eqb (List.length l) 0 = false) by (destruct l; [destruct Hx|auto]).
      assert (AN : all_nan l = false) by (destruct (all_nan l) eqn:E; auto; exfalso; unfold all_nan in E; rewrite forallb_forall in E; specialize (E _ Hx); discriminate).
      rewrite L, AN. destruct H as [[-> ->]|[[-> ->]|[[-> ->]|[-> ->]]]]; reflexivity.
    - unfold value_df. rewrite map_length. rewrite all_nan_some by auto.
      assert (L : Nat.eqb (List.length (drop_nan l)) 0 = false) by (destruct (drop_nan l); [contradiction|auto]).
      rewrite L. unfold reduce. rewrite drop_nan_some.
      destruct H as [[-> ->]|[[-> ->]|[[-> ->]|[-> ->]]]]; reflexivity. }
  split; [apply V; auto|]. split; [apply V; auto|]. split; [apply V; auto|]. split; [apply V; auto 10|].
  split; [apply drop_nan_In; auto|]. split; [apply drop_nan_In; auto|].
  split; [intros y Hy; apply Bd, drop_nan_In; auto|].
  split; [apply qmean_bounds; auto|apply qmedian_bounds; auto].
Qed.

Theorem count_df sqrt l : value_df sqrt "COUNT" true l = Ok (Some (inject_Z (known l))).
Proof. unfold value_df. cbn. unfold qlen. rewrite map_length, known_length. auto. Qed.
Theorem count_xr sqrt skipna l : value_xr sqrt "COUNT" skipna l = Ok (Some (qlen l)).
Proof. reflexivity. Qed.
Theorem value_nan (from_xr : bool) sqrt l agg : (forall x, ~ In (Some x) l) -> agg <> "COUNT"%string ->
  (if from_xr then value_xr sqrt agg true l else value_df sqrt agg true l) = Ok None.
Proof.
  intros H N. apply String.eqb_neq in N.
  assert (E : drop_nan l = []).
  { destruct (drop_nan l) as [|q k] eqn:E; auto. exfalso. apply (H q). apply drop_nan_In. rewrite E. left; auto. }
  destruct from_xr.
  - unfold value_xr. rewrite N. destruct l as [|v l]; auto.
    assert (A : all_nan (v :: l) = true).
    { apply forallb_forall. intros [q|] Hq; auto. exfalso. apply (H q); auto. }
    cbn [List.length Nat.eqb]. rewrite A. auto.
  - unfold value_df. rewrite N, E. auto.
Qed.
(** Unknown (also lower case) aggregation types are rejected as soon as there is data. *)
Theorem value_unknown (from_xr : bool) sqrt l agg x : In (Some x) l ->
  ~ In agg ["COUNT"; "MIN"; "MAX"; "MEAN"; "MEDIAN"; "STD"; "RMSE"]%string ->
  (if from_xr then value_xr sqrt agg true l else value_df sqrt agg true l) = Err ValueError.
Proof.
  intros Hx N. assert (Nd : drop_nan l <> []).
  { intros E. apply drop_nan_In in Hx. rewrite E in Hx. destruct Hx. }
  cbn in N.
  assert (X : forall s, agg = s -> False \/ agg = s) by auto.
  destruct from_xr.
  - unfold value_xr. assert (L : Nat.eqb (List.length l) 0 = false) by (destruct l; [destruct Hx|auto]).
    assert (AN : all_nan l = false) by (destruct (all_nan l) eqn:E; auto; exfalso; unfold all_nan in E; rewrite forallb_forall in E; specialize (E _ Hx); discriminate).
    rewrite L, AN. repeat (match goal with |- context [String.eqb agg ?s] => destruct (String.eqb_spec agg s) as [E|_]; [exfalso; apply N; subst; tauto|] end). auto.
  - unfold value_df. rewrite map_length, all_nan_some by auto.
    assert (L : Nat.eqb (List.length (drop_nan l)) 0 = false) by (destruct (drop_nan l); [contradiction|auto]).
    rewrite L. repeat (match goal with |- context [String.eqb agg ?s] => destruct (String.eqb_spec agg s) as [E|_]; [exfalso; apply N; subst; tauto|] end). auto.
Qed.
