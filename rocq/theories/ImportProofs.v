(** Proofs about imported data (C69). *)
From Coq Require Import Permutation Sorting.Sorted.
From Verif Require Import Base QLib Geo Graph Cell Loaders Builder Spec MeshSpec DataSpec TrimProofs XrProofs ConstructSpec ConstructProofs
  GlobeProofs Config Params ParamProofs Shapes ShapeProofs Downsample Import ImportSpec.
Open Scope Q_scope.

Lemma wrap_range x : -180 <= wrap_long x < 180 /\ exists k, x == wrap_long x + 360 * inject_Z k.
Proof. unfold wrap_long. destruct (qmod_360 (x + 180)) as [R (k & E)]. split; [lra|]. exists k. lra. Qed.
Lemma wrap_id x : -180 <= x < 180 -> wrap_long x == x.
Proof. intros R. unfold wrap_long. destruct (qmod_360_small (x + 180) ltac:(lra)) as [[E _]|[E _]]; lra. Qed.

(** ** Rows *)
Definition with_long (f : Q -> Q) (p : point) : point := mkP (p_lat p) (f (p_long p)) (p_time p) (p_vals p).
Definition with_vals (f : list (option Q) -> list (option Q)) (p : point) : point := mkP (p_lat p) (p_long p) (p_time p) (f (p_vals p)).
Lemma map_flat_map {A B C} (g : B -> C) (f : A -> list B) l : map g (flat_map f l) = flat_map (fun x => map g (f x)) l.
Proof. induction l as [|x l IH]; [reflexivity|]. cbn. rewrite map_app, IH. reflexivity. Qed.
Lemma flat_map_map {A B C} (g : A -> B) (f : B -> list C) l : flat_map f (map g l) = flat_map (fun x => f (g x)) l.
Proof. induction l as [|x l IH]; [reflexivity|]. cbn. rewrite IH. reflexivity. Qed.
Lemma points_vals f ds : xr_points (map_vals f ds) = map (with_vals f) (xr_points ds).
Proof.
  unfold xr_points, map_vals. cbn [x_lat x_long x_time x_val]. rewrite map_flat_map. apply flat_map_ext. intros la. rewrite map_flat_map. apply flat_map_ext. intros lo.
  destruct (x_time ds) as [ts|]; [|reflexivity]. rewrite map_map. reflexivity.
Qed.
Lemma points_long ds : xr_points (assign_long ds) = map (with_long wrap_long) (xr_points ds).
Proof.
  unfold xr_points, assign_long. cbn [x_lat x_long x_time x_val]. rewrite map_flat_map. apply flat_map_ext. intros la. rewrite map_flat_map, flat_map_map. apply flat_map_ext. intros lo.
  cbn [fst snd]. destruct (x_time ds) as [ts|]; [|reflexivity]. rewrite map_map. reflexivity.
Qed.
Lemma flat_map_perm {A B} (f g : A -> list B) l : (forall x, Permutation (f x) (g x)) -> Permutation (flat_map f l) (flat_map g l).
Proof. intros H. induction l as [|x l IH]; [constructor|]. cbn. apply Permutation_app; auto. Qed.
Lemma points_perm ds lats longs : Permutation lats (x_lat ds) -> Permutation longs (x_long ds) ->
  Permutation (xr_points (mkXr lats longs (x_time ds) (x_val ds))) (xr_points ds).
Proof.
  intros A B. unfold xr_points. cbn [x_lat x_long x_time x_val]. eapply perm_trans; [apply Permutation_flat_map, A|].
  apply flat_map_perm. intros la. apply Permutation_flat_map, B.
Qed.
Lemma filter_perm {A} (q : A -> bool) l l' : Permutation l l' -> Permutation (filter q l) (filter q l').
Proof.
  induction 1; cbn; [constructor|destruct (q x); [constructor; assumption|assumption]| |eapply perm_trans; eassumption].
  destruct (q x), (q y); try reflexivity. apply perm_swap.
Qed.
Lemma Forall2_map_r {A B} (R : A -> B -> Prop) f l : (forall x, R x (f x)) -> Forall2 R l (map f l).
Proof. intros H. induction l; constructor; auto. Qed.

(** ** Axes *)
Lemma decreasing_rev {I} (l : list (Q * I)) : decreasing l -> increasing (rev l).
Proof.
  intros D i j x y L X Y.
  assert (Xl : (i < List.length (rev l))%nat) by (apply nth_error_Some; congruence). assert (Yl : (j < List.length (rev l))%nat) by (apply nth_error_Some; congruence).
  rewrite rev_length in *. assert (N : forall k, (k < List.length l)%nat -> nth_error (rev l) k = nth_error l (List.length l - S k)).
  { intros k K. destruct l as [|a l0]; [cbn in K; lia|]. rewrite (nth_error_nth' (rev (a :: l0)) a) by (rewrite rev_length; exact K). rewrite rev_nth by exact K. symmetry. apply nth_error_nth'. lia. }
  rewrite N in X, Y by assumption. apply Qlt_le_weak. eapply (D (List.length l - S j)%nat (List.length l - S i)%nat); [lia|exact Y|exact X].
Qed.
Lemma decreasing_dup {I} (l : list (Q * I)) : decreasing l -> has_dup (map fst l) = false.
Proof.
  induction l as [|a l IH]; intros D; [reflexivity|]. cbn [map has_dup]. apply orb_false_iff. split.
  - destruct (existsb (qeqb (fst a)) (map fst l)) eqn:E; [|reflexivity]. exfalso. apply existsb_exists in E as (q & I0 & E). apply in_map_iff in I0 as (y & <- & I0).
    apply In_nth_error in I0 as (k & K). pose proof (D 0%nat (S k) a y ltac:(lia) eq_refl K). apply qeqb_true in E. lra.
  - apply IH. intros i j x y L X Y. apply (D (S i) (S j) x y); [lia|exact X|exact Y].
Qed.

(** ** Trimming *)
Lemma trim_ok b ds : plain_region b -> increasing (x_lat ds) -> increasing (x_long ds) -> dated b ds ->
  exists ds', xr_trim b ds = Ok ds' /\ xr_points ds' = xr_trim_rows b (xr_points ds) /\ forall d, selected (belongs b) d (xr_trim_rows b d).
Proof.
  intros (_ & L & _ & _ & T) A B [D1 D2]. destruct (xr_trim_rows_ok b ds A B D1 D2 (or_introl L)) as (ds' & E & P). exists ds'. split; [exact E|]. split; [exact P|].
  intros d. rewrite xr_trim_rows_df by auto. apply df_trim_selects; auto.
Qed.
Lemma sorted_increasing ds : increasing (x_long (sortby_long ds)).
Proof. apply increasing_sorted. apply sort_axis_sorted. Qed.

Lemma imported_trim convert b file got : (forall d, selected (belongs b) d (xr_trim_rows b d)) ->
  Permutation got (map (with_vals convert) (map (with_long wrap_long) file)) -> imported convert b file (xr_trim_rows b got).
Proof.
  intros S P. exists (map (with_vals convert) (map (with_long wrap_long) file)), (xr_trim_rows b (map (with_vals convert) (map (with_long wrap_long) file))).
  split; [|split; [apply S|apply filter_perm, P]]. rewrite map_map. apply Forall2_map_r. intros p. destruct (wrap_range (p_long p)) as [R K]. repeat split; auto; apply R.
Qed.
Lemma moved_points convert ds lats : Permutation lats (x_lat ds) ->
  Permutation (xr_points (mkXr lats (x_long (sortby_long (assign_long ds))) (x_time ds) (fun i j t => convert (x_val ds i j t))))
              (map (with_vals convert) (map (with_long wrap_long) (xr_points ds))).
Proof.
  intros P. rewrite <- points_long, <- points_vals. apply (points_perm (map_vals convert (assign_long ds))); [exact P|]. cbn [x_long sortby_long map_vals]. apply sort_axis_perm.
Qed.
Theorem era5_ok f b ds : plain_region b -> decreasing (x_lat ds) -> dated b ds ->
  exists ds', import_era5 f b ds = Ok ds' /\ imported f b (xr_points ds) (xr_points ds').
Proof.
  intros R D T. unfold import_era5, reverse_lat. cbn [x_lat map_vals sortby_long assign_long]. rewrite (decreasing_dup _ D). cbn [bind].
  set (g := mkXr _ _ _ _). destruct (trim_ok b g R) as (ds' & E & P & S).
  - apply decreasing_rev, D.
  - apply (sorted_increasing (assign_long ds)).
  - exact T.
  - exists ds'. split; [exact E|]. rewrite P. apply imported_trim; [exact S|]. apply (moved_points f ds (rev (x_lat ds))). apply Permutation_sym, Permutation_rev.
Qed.
Theorem bsose_ok f b ds : plain_region b -> increasing (x_lat ds) -> dated b ds ->
  exists ds', xr_trim b (map_vals f (sortby_long (assign_long ds))) = Ok ds' /\ imported f b (xr_points ds) (xr_points ds').
Proof.
  intros R D T. destruct (trim_ok b (map_vals f (sortby_long (assign_long ds))) R) as (ds' & E & P & S).
  - exact D.
  - apply (sorted_increasing (assign_long ds)).
  - exact T.
  - exists ds'. split; [exact E|]. rewrite P. apply imported_trim; [exact S|]. apply (moved_points f ds (x_lat ds)). reflexivity.
Qed.
(** Conversion after trimming. *)
Lemma trim_vals f b ds ds' : xr_trim b ds = Ok ds' -> xr_trim b (map_vals f ds) = Ok (map_vals f ds').
Proof.
  unfold xr_trim. cbn [map_vals x_lat x_long x_time x_val]. destruct (sel_slice qleb (lat_min b) (lat_max b) (x_lat ds)) as [la|]; [|discriminate]. cbn [bind].
  match goal with |- bind ?x _ = _ -> _ => destruct x as [lo|]; [|discriminate] end. cbn [bind].
  match goal with |- bind ?x _ = _ -> _ => destruct x as [ts|]; [|discriminate] end. cbn [bind]. intros E. injection E as <-. reflexivity.
Qed.

(** ** Means over time *)
Lemma sel_slice_filter {A I} (le : A -> A -> bool) lo hi (axis l : list (A * I)) : sel_slice le lo hi axis = Ok l -> exists f, l = filter f axis.
Proof.
  unfold sel_slice. destruct (monotone le (map fst axis)); [intros E; injection E as <-; eauto|]. destruct (monotone _ _); [|discriminate]. intros E; injection E as <-; eauto.
Qed.
Lemma trim_shape b ds tr : long_min b < long_max b -> xr_trim b ds = Ok tr ->
  (exists f, x_lat tr = filter f (x_lat ds)) /\ (exists f, x_long tr = filter f (x_long ds)) /\ (x_time ds <> None -> x_time tr <> None).
Proof.
  intros L. unfold xr_trim. destruct (sel_slice qleb (lat_min b) (lat_max b) (x_lat ds)) as [la|] eqn:A; [|discriminate]. cbn [bind].
  destruct (qltb_spec (long_min b) (long_max b)); [|lra]. destruct (sel_slice qleb (long_min b) (long_max b) (x_long ds)) as [lo|] eqn:B; [|discriminate]. cbn [bind].
  apply sel_slice_filter in A as (f & ->), B as (g & ->).
  match goal with |- bind ?x _ = _ -> _ => destruct x as [ts|] eqn:T; [|discriminate] end. cbn [bind]. intros E. injection E as <-. cbn [x_lat x_long x_time]. rewrite !filter_filter.
  split; [eauto|]. split; [eauto|]. intros N. destruct (x_time ds) as [ts0|]; [|contradiction]. destruct (time_range b) as [|t0 [|t1 r]]; try discriminate.
  destruct (sel_slice Z.leb t0 t1 ts0); [|discriminate]. injection T as <-. discriminate.
Qed.
Lemma strictly_sorted {I} (l : list (Q * I)) : strictly l -> StronglySorted (fun x y => fst x < fst y) l.
Proof.
  induction l as [|a l IH]; intros D; constructor.
  - apply IH. intros i j x y L X Y. apply (D (S i) (S j) x y); [lia|exact X|exact Y].
  - apply Forall_forall. intros y I0. apply In_nth_error in I0 as (k & K). apply (D 0%nat (S k) a y); [lia|reflexivity|exact K].
Qed.
Lemma strictly_increasing {I} (l : list (Q * I)) : strictly l -> increasing l.
Proof. intros S i j x y L X Y. apply Qlt_le_weak. eapply S; eassumption. Qed.
Lemma flat_map_only {A B} (R : A -> A -> Prop) (f : A -> list B) l x : StronglySorted R l -> In x l -> (forall y, R x y \/ R y x -> f y = []) -> flat_map f l = f x.
Proof.
  intros H I0 N. induction H as [|y l H IH F]; [destruct I0|]. cbn [flat_map]. rewrite Forall_forall in F. destruct I0 as [->|I0].
  - assert (E : flat_map f l = []). { clear H IH. induction l as [|z l IHl]; [reflexivity|]. cbn. rewrite (N z (or_introl (F z (or_introl eq_refl)))). apply IHl. intros w W. apply F. right. exact W. }
    rewrite E, app_nil_r. reflexivity.
  - rewrite (N y (or_intror (F x I0))), (IH I0). reflexivity.
Qed.
Lemma filter_all_false {A} (f : A -> bool) l : (forall x, In x l -> f x = false) -> filter f l = [].
Proof. induction l as [|x l IH]; intros H; [reflexivity|]. cbn. rewrite (H x (or_introl eq_refl)). apply IH. intros y I0. apply H. right. exact I0. Qed.
Lemma filter_all_true {A} (f : A -> bool) l : (forall x, In x l -> f x = true) -> filter f l = l.
Proof. induction l as [|x l IH]; intros H; [reflexivity|]. cbn. rewrite (H x (or_introl eq_refl)). f_equal. apply IH. intros y I0. apply H. right. exact I0. Qed.
Definition at_place (p q : point) : bool := qeqb (p_lat q) (p_lat p) && qeqb (p_long q) (p_long p).
Lemma rows_at ds ts la lo p : x_time ds = Some ts -> StronglySorted (fun x y => fst x < fst y) (x_lat ds) -> StronglySorted (fun x y => fst x < fst y) (x_long ds) ->
  In la (x_lat ds) -> In lo (x_long ds) -> p_lat p = fst la -> p_long p = fst lo ->
  filter (at_place p) (xr_points ds) = map (fun t => mkP (fst la) (fst lo) (Some (fst t)) (x_val ds (snd la) (snd lo) (snd t))) ts.
Proof.
  intros T A B Ia Io Pa Po. unfold xr_points. rewrite T. rewrite filter_flat_map.
  rewrite (flat_map_only _ _ _ la A Ia).
  - rewrite filter_flat_map. rewrite (flat_map_only _ _ _ lo B Io).
    + apply filter_all_true. intros q I0. apply in_map_iff in I0 as (t & <- & _). unfold at_place. cbn. rewrite Pa, Po. apply andb_true_iff. split; apply qeqb_true; reflexivity.
    + intros y N. apply filter_all_false. intros q I0. apply in_map_iff in I0 as (t & <- & _). unfold at_place. cbn. rewrite Po. apply andb_false_iff. right.
      destruct (qeqb_spec (fst y) (fst lo)) as [E|]; [|reflexivity]. destruct N; lra.
  - intros y N. apply filter_all_false. intros q I0. apply in_flat_map in I0 as (z & _ & I0). apply in_map_iff in I0 as (t & <- & _). unfold at_place. cbn. rewrite Pa. apply andb_false_iff. left.
    destruct (qeqb_spec (fst y) (fst la)) as [E|]; [|reflexivity]. destruct N; lra.
Qed.
Lemma qsum_fold l : qsum (drop_nan l) = fold_right (fun x a => match x with Some q => q + a | None => a end) 0 l.
Proof. induction l as [|[q|] l IH]; cbn; [reflexivity| |exact IH]. unfold qsum in *. cbn. rewrite <- IH. reflexivity. Qed.
Lemma nan_mean l : mean_known l (nan_agg qmean l).
Proof.
  unfold nan_agg. destruct (drop_nan l) as [|x r] eqn:E; cbn [mean_known].
  - intros [q|] I0; [|reflexivity]. exfalso. assert (X : In q (drop_nan l)) by (apply in_flat_map; exists (Some q); split; [exact I0|left; reflexivity]). rewrite E in X. destruct X.
  - assert (N : Z.of_nat (List.length (x :: r)) = known l).
    { rewrite <- E. clear. induction l as [|[q|] l IH]; [reflexivity| |exact IH]. cbn [known drop_nan flat_map app List.length]. unfold drop_nan in IH. rewrite Nat2Z.inj_succ, IH. lia. }
    split; [rewrite <- N; cbn; lia|]. exists (qsum (x :: r)). split; [|rewrite <- E; apply qsum_fold].
    rewrite <- N. unfold qmean. fold (@qlen Q (x :: r)). unfold qlen. rewrite Qmult_comm. apply Qmult_div_r. cbn [List.length]. rewrite Nat2Z.inj_succ. unfold Qeq. cbn. lia.
Qed.

Lemma imported_origin f b file got : imported f b file got -> forall q, In q got -> exists p, In p file /\ p_lat q = p_lat p /\ p_time q = p_time p /\ p_vals q = f (p_vals p).
Proof.
  intros (all & sel & F & S & P) q I0. apply (Permutation_in _ P) in I0. assert (I1 : In q all) by (apply (selected_In _ _ _ q S) in I0; apply I0). clear -F I1.
  induction F as [|p q' l l' ((A & B & _) & C) F IH]; [destruct I1|]. destruct I1 as [->|I1]; [exists p; split; [left; reflexivity|]; auto|].
  destruct (IH I1) as (p' & Ip & X). exists p'. split; [right; exact Ip|exact X].
Qed.

(** ** Clouds *)
Lemma clear_spec p : clear (p_vals p) = false <-> cloudy p.
Proof.
  unfold clear, cloudy. split.
  - intros H. destruct (rev (p_vals p)) as [|[c|] l] eqn:E; try discriminate. apply negb_false_iff, qeqb_true in H.
    exists (rev l), c. split; [|exact H]. rewrite <- (rev_involutive (p_vals p)), E. reflexivity.
  - intros (l & c & E & H). rewrite E, rev_app_distr. cbn. apply negb_false_iff, qeqb_true, H.
Qed.
Lemma x_any_time ds i j ts t : x_time ds = Some ts -> In t ts -> clear (x_val ds i j (snd t)) = true -> x_any ds i j = true.
Proof. intros E I C. unfold x_any. rewrite E. apply existsb_exists. exists t. auto. Qed.
Lemma where_clear_in ds r : In r (xr_points (where_clear ds)) -> exists r0, In r0 (xr_points ds) /\ p_lat r = p_lat r0 /\ p_long r = p_long r0 /\ p_time r = p_time r0 /\
  p_vals r = (if clear (p_vals r0) then p_vals r0 else map (fun _ => None) (p_vals r0)).
Proof.
  intros H. apply xr_points_in in H as (la & lo & Ia & Io & H). cbn [where_clear x_lat x_long x_time x_val] in *.
  apply filter_In in Ia as [Ia _]. apply filter_In in Io as [Io _].
  destruct (x_time ds) as [ts|] eqn:E; cbn [option_map] in H.
  - destruct H as (t & It & ->). apply filter_In in It as [It _].
    exists (mkP (fst la) (fst lo) (Some (fst t)) (x_val ds (snd la) (snd lo) (snd t))). split; [apply xr_points_in; exists la, lo; rewrite E; eauto|]. auto.
  - subst r. exists (mkP (fst la) (fst lo) None (x_val ds (snd la) (snd lo) 0%nat)). split; [apply xr_points_in; exists la, lo; rewrite E; auto|]. auto.
Qed.
Lemma where_clear_keeps ds r : In r (xr_points ds) -> clear (p_vals r) = true -> In r (xr_points (where_clear ds)).
Proof.
  intros H C. apply xr_points_in in H as (la & lo & Ia & Io & H).
  assert (A : x_any ds (snd la) (snd lo) = true).
  { destruct (x_time ds) as [ts|] eqn:E; [destruct H as (t & It & ->); apply (x_any_time _ _ _ ts t); auto|].
    subst r. unfold x_any. rewrite E. exact C. }
  apply xr_points_in. exists la, lo. cbn [where_clear x_lat x_long x_time x_val].
  split; [apply filter_In; split; [exact Ia|]; apply existsb_exists; eauto|].
  split; [apply filter_In; split; [exact Io|]; apply existsb_exists; eauto|].
  destruct (x_time ds) as [ts|]; cbn [option_map].
  - destruct H as (t & It & ->). cbn [p_vals] in C. exists t. rewrite C. split; [|reflexivity]. apply filter_In. split; [exact It|].
    apply existsb_exists. exists la. split; [exact Ia|]. apply existsb_exists. exists lo. auto.
  - subst r. cbn [p_vals] in C. rewrite C. reflexivity.
Qed.
Lemma increasing_filter {I} f (l : list (Q * I)) : increasing l -> increasing (filter f l).
Proof. intros H. apply increasing_sorted, sorted_filter, increasing_sorted, H. Qed.
