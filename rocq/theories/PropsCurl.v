(** Property theorem C64: curl and difference from the mean vector.  Statements only. *)
From Coq Require Import Permutation Sorting.Sorted.
From Verif Require Import Base QLib Geo Cell Loaders DataSpec AggProofs Curl CurlSpec CurlProofs.
Open Scope Q_scope.

(** C64.  For a DataFrame with the points of a grid of at least two by two, in any order,
    calc_curl gives the curl at every point, or NaN if it is known nowhere. *)
Theorem C64_curl : forall t longs lats u v d, increasing longs -> increasing lats ->
  (2 <= List.length longs)%nat -> (2 <= List.length lats)%nat -> Permutation d (grid_points t longs lats u v) ->
  let nx := List.length longs in let ny := List.length lats in
  (exists c, curl_field (meshgrid_df d) = Ok (Some c) /\ a_n0 c = nx /\ a_n1 c = ny /\
    forall x y, (x < nx)%nat -> (y < ny)%nat -> curl_at nx ny u v x y (a_at c x y)) \/
  (curl_field (meshgrid_df d) = Ok None /\ forall x y, (x < nx)%nat -> (y < ny)%nat -> curl_at nx ny u v x y None).
Proof.
  intros t longs lats u v d Hx Hy Nx Ny P nx ny. destruct (table_arrays t longs lats u v d Hx Hy Nx Ny P) as (c & E & C0 & C1 & K).
  destruct (all_nan (entries c)) eqn:N; [right|left; exists c; auto]. split; [exact E|]. intros x y X Y.
  rewrite <- (proj1 (all_nan_spec _) N (a_at c x y)); [apply K; assumption|]. apply in_entries. exists x, y. rewrite C0, C1. auto.
Qed.
Print Assumptions C64_curl.
(** The curl of an affine field is exact. *)
Theorem C64_affine : forall t longs lats a b c a' b' c' d, increasing longs -> increasing lats ->
  (2 <= List.length longs)%nat -> (2 <= List.length lats)%nat ->
  Permutation d (grid_points t longs lats (fun x y => Some (a + b * Qnat x + c * Qnat y)) (fun x y => Some (a' + b' * Qnat x + c' * Qnat y))) ->
  exists f, curl_field (meshgrid_df d) = Ok (Some f) /\
    forall x y, (x < List.length longs)%nat -> (y < List.length lats)%nat -> exists q, a_at f x y = Some q /\ q == b' - c.
Proof.
  intros t longs lats a b c a' b' c' d Hx Hy Nx Ny P.
  assert (K : forall x y o, curl_at (List.length longs) (List.length lats) (fun x y => Some (a + b * Qnat x + c * Qnat y)) (fun x y => Some (a' + b' * Qnat x + c' * Qnat y)) x y o -> exists q, o = Some q /\ q == b' - c).
  { intros x y o (p & q & Hp & Hq & D).
    apply (slope_affine _ _ (a' + c' * Qnat y) b') in Hp as (p' & -> & Ep); [|intros k; eexists; split; [reflexivity|lra]].
    apply (slope_affine _ _ (a + b * Qnat x) c) in Hq as (q' & -> & Eq); [|intros k; eexists; split; [reflexivity|lra]].
    inversion D; subst. eexists. split; [reflexivity|lra]. }
  destruct (C64_curl t longs lats _ _ d Hx Hy Nx Ny P) as [(f & E & _ & _ & F)|[E F]].
  - exists f. split; [exact E|]. intros x y X Y. eapply K. apply F; assumption.
  - destruct (K _ _ _ (F 0%nat 0%nat ltac:(lia) ltac:(lia))) as (q & Q & _). discriminate.
Qed.
Print Assumptions C64_affine.
(** A single row or column of points gives NaN. *)
Theorem C64_thin : forall t longs lats u v d, increasing longs -> increasing lats ->
  (1 <= List.length longs)%nat -> (1 <= List.length lats)%nat -> List.length longs = 1%nat \/ List.length lats = 1%nat ->
  Permutation d (grid_points t longs lats u v) -> curl_field (meshgrid_df d) = Ok None.
Proof.
  intros t longs lats u v d Hx Hy Nx Ny H P.
  destruct (pivot_grid t longs lats u v d Hx Hy Nx Ny P 0) as (a & Ea & A0 & A1 & _).
  destruct (pivot_grid t longs lats u v d Hx Hy Nx Ny P 1) as (b & Eb & B0 & B1 & _).
  unfold meshgrid_df. rewrite Ea, Eb. unfold curl_field, has_one. cbn [bind swap a_n0 a_n1]. rewrite A0, A1.
  destruct H as [->| ->]; cbn [Nat.eqb orb]; [|rewrite orb_true_r]; reflexivity.
Qed.
Print Assumptions C64_thin.
(** Collapsed: the value of greatest magnitude, or the mean, of the known ones. *)
Theorem C64_collapsed : forall g c, curl_field g = Ok (Some c) ->
  (exists m, curl_value "MAX" g = Ok (Some m) /\ In (Some m) (entries c) /\ forall w, In (Some w) (entries c) -> magnitude_le w m) /\
  (exists m, curl_value "MEAN" g = Ok (Some m) /\ m * inject_Z (known (entries c)) == qsum (drop_nan (entries c))) /\
  (forall agg, agg <> "MAX"%string -> agg <> "MEAN"%string -> curl_value agg g = Err ValueError).
Proof.
  intros g c E.
  assert (Nn : drop_nan (entries c) <> []).
  { intros X. unfold curl_field in E. destruct g as [[fx fy]|]; [|discriminate]. cbn [bind] in E. destruct (_ || _); [discriminate|].
    destruct (gradient_axis1 fx); [|discriminate]. destruct (gradient_axis0 fy); [|discriminate]. cbn [bind] in E.
    destruct (all_nan _) eqn:Z; [discriminate|]. apply (f_equal (fun r => match r with Ok (Some x) => x | _ => c end)) in E. cbv beta iota in E. rewrite E in Z.
    assert (all_nan (entries c) = true); [|congruence]. apply all_nan_spec. intros [q|] I; [|reflexivity]. exfalso.
    assert (In q (drop_nan (entries c))) by (apply in_flat_map; exists (Some q); split; [exact I|left; reflexivity]). rewrite X in H. destruct H. }
  assert (In_drop : forall q, In q (drop_nan (entries c)) <-> In (Some q) (entries c)).
  { intros q. unfold drop_nan. rewrite in_flat_map. split; [intros ([z|] & I & J); [destruct J as [<-|[]]; exact I|destruct J]|intros I; exists (Some q); split; [exact I|left; reflexivity]]. }
  destruct (qmax_list_spec _ Nn) as [M1 M2]. destruct (qmin_list_spec _ Nn) as [L1 L2].
  unfold curl_value. rewrite E. cbn [bind]. split; [|split].
  - eexists. split; [reflexivity|]. set (l := drop_nan (entries c)) in *.
    assert (B : forall x, 0 <= qabs x /\ x <= qabs x /\ - x <= qabs x /\ (qabs x == x \/ qabs x == - x)).
    { intros x. unfold qabs. destruct (qltb_spec x 0); (split; [lra|split; [lra|split; [lra|]]]); [right|left]; reflexivity. }
    pose proof (B (qmax_list l)) as (A1 & A2 & A3 & A4). pose proof (B (qmin_list l)) as (B1 & B2 & B3 & B4).
    destruct (qltb_spec (qabs (qmax_list l)) (qabs (qmin_list l))) as [C|C].
    + split; [apply In_drop; exact L1|]. intros w I. apply In_drop in I. pose proof (M2 w I). pose proof (L2 w I). unfold magnitude_le.
      assert (X1 : - qabs (qmin_list l) <= w) by lra. assert (X2 : w <= qabs (qmin_list l)) by lra.
      assert (Y : qmin_list l * qmin_list l == qabs (qmin_list l) * qabs (qmin_list l)) by (destruct B4 as [R|R]; rewrite R; ring). rewrite Y. nra.
    + split; [apply In_drop; exact M1|]. intros w I. apply In_drop in I. pose proof (M2 w I). pose proof (L2 w I). unfold magnitude_le.
      assert (X1 : - qabs (qmax_list l) <= w) by lra. assert (X2 : w <= qabs (qmax_list l)) by lra.
      assert (Y : qmax_list l * qmax_list l == qabs (qmax_list l) * qabs (qmax_list l)) by (destruct A4 as [R|R]; rewrite R; ring). rewrite Y. nra.
  - eexists. split; [reflexivity|]. unfold qmean, qlen. rewrite <- known_length. rewrite Qmult_comm. apply Qmult_div_r.
    destruct (drop_nan (entries c)) as [|z l]; [contradiction|]. unfold Qeq. cbn [List.length]. rewrite Nat2Z.inj_succ. cbn. lia.
  - intros agg A B. destruct (String.eqb_spec agg "MAX"); [contradiction|]. destruct (String.eqb_spec agg "MEAN"); [contradiction|]. reflexivity.
Qed.
Print Assumptions C64_collapsed.
(** The answer follows from the fraction of the known curls, taken with their signs, that
    exceed the threshold. *)
Theorem C64_homogeneity : forall min_dp num_dp g c,
  ((num_dp < min_dp)%Z -> hom_curl min_dp num_dp g c = Ok CLR) /\
  ((min_dp <= num_dp)%Z -> curl_field g = Ok None -> hom_curl min_dp num_dp g c = Ok CLR) /\
  ((min_dp <= num_dp)%Z -> forall a, curl_field g = Ok (Some a) -> let f := fraction_over (c_threshold c) (entries a) in
    (f <= c_lower c -> hom_curl min_dp num_dp g c = Ok CLR) /\
    (c_lower c < f -> c_upper c <= f -> hom_curl min_dp num_dp g c = Ok (if c_lock c then HOM else CLR)) /\
    (c_lower c < f -> f < c_upper c -> hom_curl min_dp num_dp g c = Ok HET)).
Proof.
  intros min_dp num_dp g c. unfold hom_curl. destruct (Z.ltb_spec num_dp min_dp); (split; [intros; try reflexivity; lia|]); (split; [intros L E|intros L a E]); try lia.
  - rewrite E. reflexivity.
  - rewrite E. cbn [bind]. cbv zeta. rewrite frac_over_spec. unfold classify.
    destruct (qleb_spec (fraction_over (c_threshold c) (entries a)) (c_lower c)), (qleb_spec (c_upper c) (fraction_over (c_threshold c) (entries a))); split; try split; intros; try reflexivity; exfalso; lra.
Qed.
Print Assumptions C64_homogeneity.
(** The distances of known vectors from their mean, squared. *)
Theorem C64_dmag : forall d, d <> [] -> (forall p, In p d -> exists u v, p_vals p = [Some u; Some v]) ->
  exists l mu mv, dmag2_field "MEAN" d = Ok l /\
    mu * qlen d == qsum (drop_nan (column 0 d)) /\ mv * qlen d == qsum (drop_nan (column 1 d)) /\
    Forall2 (fun p o => exists u v q, p_vals p = [Some u; Some v] /\ o = Some q /\ q == (u - mu) * (u - mu) + (v - mv) * (v - mv)) d l.
Proof.
  intros d N H.
  assert (L : forall k, (k < 2)%nat -> List.length (drop_nan (column k d)) = List.length d).
  { intros k K. clear N. induction d as [|p d IH]; [reflexivity|]. unfold column in *. cbn [map drop_nan flat_map List.length]. destruct (H p (or_introl eq_refl)) as (u & v & ->).
    destruct k as [|[|k]]; [| |lia]; cbn; f_equal; apply IH; intros q I; apply H; right; exact I. }
  assert (Z : ~ qlen d == 0) by (unfold qlen; destruct d; [contradiction|]; cbn [List.length]; rewrite Nat2Z.inj_succ; unfold Qeq; cbn; lia).
  assert (M : forall k, (k < 2)%nat -> exists m, (match drop_nan (column k d) with [] => None | _ => Some (qmean (drop_nan (column k d))) end) = Some m /\ m * qlen d == qsum (drop_nan (column k d))).
  { intros k K. specialize (L k K). destruct (drop_nan (column k d)) as [|x l] eqn:E; [destruct d; [contradiction|discriminate]|].
    eexists. split; [reflexivity|]. unfold qmean. assert (X : qlen (x :: l) = qlen d) by (unfold qlen; rewrite L; reflexivity). rewrite X, Qmult_comm. apply Qmult_div_r. exact Z. }
  destruct (M 0%nat ltac:(lia)) as (mu & E0 & M0). destruct (M 1%nat ltac:(lia)) as (mv & E1 & M1).
  exists (map (dmag2 [Some mu; Some mv]) d), mu, mv. split; [|split; [exact M0|split; [exact M1|]]].
  - unfold dmag2_field, vector_values_df. destruct (Nat.eqb_spec (List.length d) 0) as [X|X]; [destruct d; [contradiction|discriminate]|].
    cbn [String.eqb Ascii.eqb Bool.eqb bind seq map]. rewrite E0, E1. reflexivity.
  - clear -H. induction d as [|p d IH]; [constructor|]. constructor; [|apply IH; intros q I; apply H; right; exact I].
    destruct (H p (or_introl eq_refl)) as (u & v & E). exists u, v. unfold dmag2. rewrite E. cbn. eexists. split; [reflexivity|]. split; [reflexivity|ring].
Qed.
Print Assumptions C64_dmag.
(** Collapsed: the greatest distance or the mean of the distances; [sqrt] is the square root. *)
Theorem C64_dmag_collapsed : forall sqrt agg d l, dmag2_field agg d = Ok l ->
  ((forall o, In o l -> o = None) -> dmag_value sqrt agg d = Ok None) /\
  ((exists q, In (Some q) l) ->
     (agg = "MAX"%string -> exists m q, dmag_value sqrt agg d = Ok (Some m) /\ In (Some q) l /\ m = sqrt q /\ forall w, In (Some w) l -> sqrt w <= m) /\
     (agg = "MEAN"%string -> exists m, dmag_value sqrt agg d = Ok (Some m) /\ m * qlen (drop_nan l) == qsum (map sqrt (drop_nan l))) /\
     (agg <> "MAX"%string -> agg <> "MEAN"%string -> dmag_value sqrt agg d = Err ValueError)).
Proof.
  intros sqrt agg d l E. unfold dmag_value. rewrite E. cbn [bind].
  assert (In_drop : forall q, In q (drop_nan l) <-> In (Some q) l).
  { intros q. unfold drop_nan. rewrite in_flat_map. split; [intros ([z|] & I & J); [destruct J as [<-|[]]; exact I|destruct J]|intros I; exists (Some q); split; [exact I|left; reflexivity]]. }
  split; [intros H; rewrite (proj2 (all_nan_spec l) H); reflexivity|]. intros (q & I).
  destruct (all_nan l) eqn:Z; [discriminate (proj1 (all_nan_spec l) Z (Some q) I)|].
  assert (Nn : map sqrt (drop_nan l) <> []) by (apply In_drop in I; destruct (drop_nan l); [destruct I|discriminate]).
  split; [|split].
  - intros ->. cbn [String.eqb Ascii.eqb Bool.eqb]. destruct (qmax_list_spec _ Nn) as [M1 M2]. apply in_map_iff in M1 as (w & W & J).
    exists (qmax_list (map sqrt (drop_nan l))), w. split; [reflexivity|]. split; [apply In_drop, J|]. split; [symmetry; exact W|]. intros v V. apply M2. apply in_map, In_drop, V.
  - intros ->. cbn [String.eqb Ascii.eqb Bool.eqb]. eexists. split; [reflexivity|]. unfold qmean. replace (qlen (drop_nan l)) with (qlen (map sqrt (drop_nan l))) by (unfold qlen; rewrite map_length; reflexivity).
    rewrite Qmult_comm. apply Qmult_div_r. unfold qlen. destruct (map sqrt (drop_nan l)); [contradiction|]. cbn [List.length]. rewrite Nat2Z.inj_succ. unfold Qeq. cbn. lia.
  - intros A B. apply String.eqb_neq in A, B. rewrite A, B. reflexivity.
Qed.
Print Assumptions C64_dmag_collapsed.
(** utils: curl and divergence of arrays whose first axis is northwards, the second
    eastwards. *)
Theorem C64_utils : forall fx fy, (2 <= a_n0 fx)%nat -> (2 <= a_n1 fx)%nat -> a_n0 fy = a_n0 fx -> a_n1 fy = a_n1 fx ->
  let u x y := a_at fx y x in let v x y := a_at fy y x in
  (exists c, utils_curl fx fy = Ok c /\ forall x y, (x < a_n1 fx)%nat -> (y < a_n0 fx)%nat -> curl_at (a_n1 fx) (a_n0 fx) u v x y (a_at c x y)) /\
  (exists c, utils_divergence fx fy = Ok c /\ forall x y, (x < a_n1 fx)%nat -> (y < a_n0 fx)%nat -> divergence_at (a_n1 fx) (a_n0 fx) u v x y (a_at c x y)).
Proof.
  intros fx fy N0 N1 E0 E1 u v. unfold utils_curl, utils_divergence, gradient_axis0, gradient_axis1. cbn [swap a_n0 a_n1 a_at]. rewrite E0, E1.
  destruct (Nat.ltb_spec (a_n0 fx) 2); [lia|]. destruct (Nat.ltb_spec (a_n1 fx) 2); [lia|]. cbn [bind]. split.
  - eexists. split; [reflexivity|]. intros x y X Y. cbn. eexists. eexists. split; [apply gradient1_slope; assumption|]. split; [apply gradient1_slope; assumption|apply osub_diff].
  - eexists. split; [reflexivity|]. intros x y X Y. cbn. eexists. eexists. split; [apply gradient1_slope; assumption|]. split; [apply gradient1_slope; assumption|apply oadd_total].
Qed.
Print Assumptions C64_utils.

(** A turning field on a grid of 3 by 2 points, the rows out of order. *)
Definition turning : data := grid_points (Some 7%Z) [10; 20; 40] [50; 60] (fun x y => Some (- 3 * Qnat y)) (fun x y => Some (2 * Qnat x)).
Example C64_case : increasing [10; 20; 40] /\ increasing [50; 60] /\
  option_map Qred (match curl_value "MAX" (meshgrid_df (rev turning)) with Ok v => v | _ => None end) = Some 5 /\
  vector_hom_curl_df 2 turning (mkB 0 90 0 90 [0; 9]%Z) (mkCond 4 (1#4) 1 true) = Ok HOM /\
  vector_hom_curl_df 2 turning (mkB 0 90 0 90 [0; 9]%Z) (mkCond 4 (1#4) 2 true) = Ok HET /\
  vector_hom_curl_df 2 turning (mkB 0 90 0 90 [0; 9]%Z) (mkCond 6 (1#4) 2 true) = Ok CLR.
Proof.
  split; [repeat constructor|]. split; [repeat constructor|]. vm_compute. auto.
Qed.

(** False: the sign matters, so a field turning clockwise is never split ... *)
Theorem C64_sign_refuted : exists d b c, (exists f, curl_field (meshgrid_df (df_trim b d)) = Ok (Some f) /\ forall o, In o (entries f) -> exists q, o = Some q /\ c_threshold c * c_threshold c < q * q) /\
  0 <= c_threshold c /\ c_lower c < 1 /\ 1 < c_upper c /\ vector_hom_curl_df 2 d b c = Ok CLR.
Proof.
  exists (grid_points None [10; 20] [50; 60] (fun x y => Some (3 * Qnat y)) (fun x y => Some (- (2) * Qnat x))), (mkB 0 90 0 90 []), (mkCond 4 (1#4) 2 true).
  split; [|repeat split; vm_compute; auto; discriminate]. eexists. split; [vm_compute; reflexivity|]. intros o I.
  vm_compute in I. repeat (destruct I as [<-|I]; [eexists; split; [reflexivity|vm_compute; reflexivity]|]). destruct I.
Qed.
Print Assumptions C64_sign_refuted.
(** ... a DataFrame with more than one time, or without points, raises ... *)
Theorem C64_times_refuted : exists d b c, In (mkP 1 1 (Some 1%Z) [Some 0; Some 0]) d /\ In (mkP 1 1 (Some 2%Z) [Some 0; Some 0]) d /\
  vector_hom_curl_df 2 d b c = Err ValueError.
Proof.
  exists [mkP 1 1 (Some 1%Z) [Some 0; Some 0]; mkP 1 1 (Some 2%Z) [Some 0; Some 0]], (mkB 0 9 0 9 [0; 9]%Z), (mkCond 4 (1#4) 2 true).
  split; [left; reflexivity|]. split; [right; left; reflexivity|]. vm_compute. reflexivity.
Qed.
Print Assumptions C64_times_refuted.
Theorem C64_empty_refuted : forall c, curl_field (meshgrid_df []) = Err ValueError /\ vector_hom_curl_df 0 [] (mkB 0 9 0 9 []) c = Err ValueError.
Proof. intros c. split; reflexivity. Qed.
Print Assumptions C64_empty_refuted.
(** ... and of Datasets the northward slope of v less the eastward slope of u is taken ... *)
Theorem C64_dataset : forall ds, (2 <= List.length (x_lat ds))%nat -> (2 <= List.length (x_long ds))%nat ->
  let at_ k (y x : nat) := match nth_error (x_lat ds) y, nth_error (x_long ds) x with
                           | Some la, Some lo => nth k (x_val ds (snd la) (snd lo) 0%nat) None | _, _ => None end in
  exists c, curl_field (meshgrid_xr ds) = (if all_nan (entries c) then Ok None else Ok (Some c)) /\
    forall y x, (y < List.length (x_lat ds))%nat -> (x < List.length (x_long ds))%nat -> exists vy ux,
      slope (List.length (x_lat ds)) (fun k => at_ 1%nat k x) y vy /\ slope (List.length (x_long ds)) (fun k => at_ 0%nat y k) x ux /\ diff vy ux (a_at c y x).
Proof.
  intros ds N0 N1 at_. destruct (curl_of_arrays (xr_array ds 0) (xr_array ds 1) N0 N1 eq_refl eq_refl) as (c & E & _ & _ & K). exists c. split; [exact E|].
  assert (A : forall k y x, (y < List.length (x_lat ds))%nat -> (x < List.length (x_long ds))%nat -> a_at (xr_array ds k) y x = at_ k y x).
  { intros k y x Hy Hx. unfold at_. cbn [a_at xr_array]. rewrite (nth_error_nth' (x_lat ds) (0, 0%nat) Hy), (nth_error_nth' (x_long ds) (0, 0%nat) Hx). reflexivity. }
  intros y x Hy Hx. destruct (K y x Hy Hx) as (vy & ux & S1 & S2 & D). exists vy, ux. split; [|split; [|exact D]].
  - eapply (slope_ext _ (fun k => a_at (xr_array ds 1) k x)); [cbn; lia|intros k Hk; apply A; assumption|exact N0|exact Hy|exact S1].
  - eapply (slope_ext _ (fun k => a_at (xr_array ds 0) y k)); [cbn; lia|intros k Hk; apply A; assumption|exact N1|exact Hx|exact S2].
Qed.
Print Assumptions C64_dataset.
Definition as_dataset (longs lats : list Q) (u v : nat -> nat -> option Q) : xrds :=
  mkXr (combine lats (seq 0 (List.length lats))) (combine longs (seq 0 (List.length longs))) None (fun i j _ => [u j i; v j i]).
Theorem C64_dataset_refuted : exists u v, (forall x y, (x < 2)%nat -> (y < 2)%nat -> forall o, curl_at 2 2 u v x y o -> exists q, o = Some q /\ q == 5) /\
  curl_value "MAX" (meshgrid_xr (as_dataset [10; 20] [50; 60] u v)) = Ok (Some 0).
Proof.
  exists (fun x y => Some (- (3) * Qnat y)), (fun x y => Some (2 * Qnat x)). split; [|vm_compute; reflexivity].
  intros x y X Y o (p & q & Hp & Hq & D).
  apply (slope_affine _ _ 0 2) in Hp as (p' & -> & Ep); [|intros k; eexists; split; [reflexivity|lra]].
  apply (slope_affine _ _ 0 (- (3))) in Hq as (q' & -> & Eq); [|intros k; eexists; split; [reflexivity|lra]].
  inversion D; subst. eexists. split; [reflexivity|lra].
Qed.
Print Assumptions C64_dataset_refuted.
Definition reduced (r : res (list (option Q))) : res (list (option Q)) := l <- r ;; Ok (map (option_map Qred) l).
(** ... and calc_dmag raises for Datasets and, asked for the maximum, measures from the
    longest vector. *)
Theorem C64_dmag_refuted : (forall agg ds, dmag2_field_xr agg ds = Err AttributeError) /\
  exists d, reduced (dmag2_field "MEAN" d) = Ok [Some 4; Some 4] /\ reduced (dmag2_field "MAX" d) = Ok [Some 0; Some 16].
Proof.
  split; [reflexivity|]. exists [mkP 1 1 None [Some 6; Some 0]; mkP 1 2 None [Some 2; Some 0]]. split; vm_compute; reflexivity.
Qed.
Print Assumptions C64_dmag_refuted.
