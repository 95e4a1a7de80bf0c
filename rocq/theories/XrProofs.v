(** Trimming an xarray Dataset keeps exactly the rows of the bounds; trimming
    across the antimeridian. *)
From Verif Require Import Base Geo Graph Cell Loaders Builder Spec MeshSpec DataSpec QLib TrimProofs.
Open Scope Z_scope.

Lemma monotone_spec {A I} (le : A -> A -> bool) (R : A -> A -> Prop) (axis : list (A * I)) :
  (forall x y, R x y -> le x y = true) ->
  (forall i j x y, (i < j)%nat -> nth_error axis i = Some x -> nth_error axis j = Some y -> R (fst x) (fst y)) ->
  monotone le (map fst axis) = true.
Proof.
  intros HR. induction axis as [|a axis IH]; intros H; auto.
  destruct axis as [|b axis]; auto.
  assert (IH' : monotone le (map fst (b :: axis)) = true).
  { apply IH. intros i j x y Hij. apply (H (S i) (S j)). lia. }
  change (monotone le (map fst (a :: b :: axis))) with (le (fst a) (fst b) && monotone le (map fst (b :: axis))).
  rewrite IH', andb_true_r. apply HR. apply (H 0%nat 1%nat a b); auto.
Qed.
Lemma increasing_monotone {I} (axis : list (Q * I)) : increasing axis -> monotone qleb (map fst axis) = true.
Proof. intros H. eapply (monotone_spec qleb Qle); [intros; apply qleb_true; auto|exact H]. Qed.
Lemma increasing_z_monotone {I} (axis : list (Z * I)) : increasing_z axis -> monotone Z.leb (map fst axis) = true.
Proof. intros H. eapply (monotone_spec Z.leb Z.le); [intros; apply Z.leb_le; auto|exact H]. Qed.
Lemma increasing_tail {I} (a : Q * I) axis : increasing (a :: axis) -> increasing axis.
Proof. intros H i j x y Hij. apply (H (S i) (S j)). lia. Qed.
Lemma increasing_head {I} (a : Q * I) axis x : increasing (a :: axis) -> In x axis -> (fst a <= fst x)%Q.
Proof. intros H Hx. apply In_nth_error in Hx as (j & Hj). apply (H 0%nat (S j) a x); auto. lia. Qed.

Lemma filter_app_sorted {I} (axis : list (Q * I)) (lo hi : Q) (f g : Q -> bool) : increasing axis -> (hi < lo)%Q ->
  (forall x, f x = true -> (x <= hi)%Q) -> (forall x, g x = true -> (lo <= x)%Q) ->
  filter (fun x => f (fst x)) axis ++ filter (fun x => g (fst x)) axis = filter (fun x => f (fst x) || g (fst x)) axis.
Proof.
  intros Inc L Hf Hg. induction axis as [|a axis IH]; auto. cbn [filter].
  specialize (IH (increasing_tail _ _ Inc)).
  destruct (f (fst a)) eqn:Ef.
  - destruct (g (fst a)) eqn:Eg; [apply Hf in Ef; apply Hg in Eg; exfalso; lra|].
    cbn [orb app]. rewrite <- IH. auto.
  - destruct (g (fst a)) eqn:Eg; cbn [orb]; auto.
    assert (N : filter (fun x => f (fst x)) axis = []).
    { assert (X : forall x, In x axis -> f (fst x) = false).
      { intros x Hx. destruct (f (fst x)) eqn:E; auto. apply Hf in E. apply Hg in Eg.
        pose proof (increasing_head _ _ _ Inc Hx). exfalso. lra. }
      clear - X. induction axis as [|y l IH]; auto. cbn. rewrite X by (left; auto). apply IH. intros; apply X; right; auto. }
    rewrite N in *. cbn [app] in *. rewrite IH. auto.
Qed.

Lemma filter_filter {A} (f g : A -> bool) l : filter f (filter g l) = filter (fun x => g x && f x) l.
Proof. induction l as [|a l IH]; auto. cbn. destruct (g a); cbn; [destruct (f a)|]; cbn; rewrite ?IH; auto. Qed.
Lemma filter_flat_map {A B} (f : B -> bool) (g : A -> list B) l : filter f (flat_map g l) = flat_map (fun a => filter f (g a)) l.
Proof. induction l as [|a l IH]; auto. cbn. rewrite filter_app, IH. auto. Qed.
Lemma flat_map_filter {A B} (f : A -> bool) (g : A -> list B) l :
  flat_map g (filter f l) = flat_map (fun a => if f a then g a else []) l.
Proof. induction l as [|a l IH]; auto. cbn. destruct (f a); cbn; rewrite IH; auto. Qed.

(** Rows of a filtered Dataset. *)
Lemma xr_points_filter (fa fo : Q * nat -> bool) (ft : Z * nat -> bool) ds (mask : point -> bool) :
  (forall la lo t vs, mask (mkP (fst la) (fst lo) (Some (fst t)) vs) = fa la && fo lo && ft t) ->
  (forall la lo vs, mask (mkP (fst la) (fst lo) None vs) = fa la && fo lo) ->
  xr_points (mkXr (filter fa (x_lat ds)) (filter fo (x_long ds)) (option_map (filter ft) (x_time ds)) (x_val ds)) =
  filter mask (xr_points ds).
Proof.
  intros HT HN. unfold xr_points. cbn [x_lat x_long x_time x_val].
  rewrite flat_map_filter, filter_flat_map. apply flat_map_ext. intros la.
  rewrite filter_flat_map, flat_map_filter. destruct (fa la) eqn:Ea.
  - apply flat_map_ext. intros lo. destruct (x_time ds) as [ts|]; cbn [option_map].
    + destruct (fo lo) eqn:Eo.
      * induction ts as [|t ts IH]; auto. cbn [filter map]. rewrite HT, Ea, Eo. cbn [andb].
        destruct (ft t); cbn [map]; rewrite IH; auto.
      * induction ts as [|t ts IH]; auto. cbn [filter map]. rewrite HT, Ea, Eo. cbn [andb]. auto.
    + cbn [filter]. rewrite HN, Ea. cbn [andb]. destruct (fo lo); auto.
  - symmetry. induction (x_long ds) as [|lo l IH]; auto. cbn [flat_map]. rewrite IH, app_nil_r.
    destruct (x_time ds) as [ts|]; cbn [filter].
    + clear IH. induction ts as [|t ts IHt]; auto. cbn [filter map]. rewrite HT, Ea. cbn [andb]. auto.
    + rewrite HN, Ea. cbn [andb]. auto.
Qed.

(** The period is given whenever the data set has a time axis. *)
Definition period_given (b : boundary) (ds : xrds) : Prop := x_time ds <> None -> exists t0 t1, time_range b = [t0; t1].

Theorem xr_trim_rows_ok b ds : increasing (x_lat ds) -> increasing (x_long ds) ->
  (forall ts, x_time ds = Some ts -> increasing_z ts) -> period_given b ds ->
  (long_min b < long_max b \/ long_max b < long_min b)%Q ->
  exists ds', xr_trim b ds = Ok ds' /\ xr_points ds' = xr_trim_rows b (xr_points ds).
Proof.
  intros Ia Io It Ip Ord. unfold xr_trim, sel_slice.
  rewrite (increasing_monotone _ Ia). cbn [bind].
  set (fo := fun x : Q * nat =>
    (if qltb (long_min b) (long_max b) then qleb (long_min b) (fst x) && qleb (fst x) (long_max b)
     else (qleb (-180) (fst x) && qleb (fst x) (long_max b)) || (qleb (long_min b) (fst x) && qleb (fst x) 180)) &&
    negb (qeqb (fst x) (long_min b))).
  set (fa := fun x : Q * nat => qleb (lat_min b) (fst x) && qleb (fst x) (lat_max b) && negb (qeqb (fst x) (lat_min b))).
  set (ft := fun x : Z * nat => match time_range b with t0 :: t1 :: _ => (t0 <=? fst x) && (fst x <=? t1) | _ => false end).
  assert (Eo : exists lo, (if qltb (long_min b) (long_max b) then
       (if monotone qleb (map fst (x_long ds)) then Ok (filter (fun x => qleb (long_min b) (fst x) && qleb (fst x) (long_max b)) (x_long ds))
        else if monotone (fun x y => qleb y x) (map fst (x_long ds)) then Ok (filter (fun x => qleb (long_max b) (fst x) && qleb (fst x) (long_min b)) (x_long ds)) else Err KeyError)
     else lhs <- (if monotone qleb (map fst (x_long ds)) then Ok (filter (fun x => qleb (-180) (fst x) && qleb (fst x) (long_max b)) (x_long ds))
        else if monotone (fun x y => qleb y x) (map fst (x_long ds)) then Ok (filter (fun x => qleb (long_max b) (fst x) && qleb (fst x) (-180)) (x_long ds)) else Err KeyError) ;;
          rhs <- (if monotone qleb (map fst (x_long ds)) then Ok (filter (fun x => qleb (long_min b) (fst x) && qleb (fst x) 180) (x_long ds))
        else if monotone (fun x y => qleb y x) (map fst (x_long ds)) then Ok (filter (fun x => qleb 180 (fst x) && qleb (fst x) (long_min b)) (x_long ds)) else Err KeyError) ;;
        Ok (lhs ++ rhs)) = Ok lo /\ filter (fun x => negb (qeqb (fst x) (long_min b))) lo = filter fo (x_long ds)).
  { rewrite (increasing_monotone _ Io). unfold fo. destruct (qltb_spec (long_min b) (long_max b)) as [L|L].
    - eexists. split; [reflexivity|]. rewrite filter_filter. reflexivity.
    - cbn [bind]. eexists. split; [reflexivity|].
      rewrite (filter_app_sorted (x_long ds) (long_min b) (long_max b) (fun q => qleb (-180) q && qleb q (long_max b)) (fun q => qleb (long_min b) q && qleb q 180)); auto.
      + rewrite filter_filter. reflexivity.
      + destruct Ord; [contradiction|auto].
      + intros x Hx. apply andb_true_iff in Hx as [_ Hx]. apply qleb_true in Hx. auto.
      + intros x Hx. apply andb_true_iff in Hx as [Hx _]. apply qleb_true in Hx. auto. }
  destruct Eo as (lo & Elo & Flo). rewrite Elo. cbn [bind].
  assert (Et : match x_time ds with
          | None => Ok None
          | Some ts => match time_range b with
                       | t0 :: t1 :: _ => ts' <- (if monotone Z.leb (map fst ts) then Ok (filter (fun x => Z.leb t0 (fst x) && Z.leb (fst x) t1) ts)
                            else if monotone (fun x y => Z.leb y x) (map fst ts) then Ok (filter (fun x => Z.leb t1 (fst x) && Z.leb (fst x) t0) ts) else Err KeyError) ;; Ok (Some ts')
                       | _ => Err IndexError
                       end
          end = Ok (option_map (filter ft) (x_time ds))).
  { destruct (x_time ds) as [ts|] eqn:Ets; auto. destruct Ip as (t0 & t1 & Ep); [congruence|].
    unfold ft. rewrite Ep, (increasing_z_monotone _ (It ts eq_refl)). reflexivity. }
  rewrite Et. cbn [bind]. eexists. split; [reflexivity|].
  rewrite Flo, filter_filter.
  apply (xr_points_filter fa fo ft).
  - intros la lo' t vs. unfold xr_spatial, in_time, fa, fo, ft. cbn [p_lat p_long p_time].
    destruct (time_range b) as [|? [|? ?]]; rewrite ?andb_false_r; auto; rewrite <- !andb_assoc; auto.
  - intros la lo' vs. unfold xr_spatial, in_time, fa, fo. cbn [p_lat p_long p_time]. rewrite andb_true_r, <- !andb_assoc. auto.
Qed.

(** ** Across the antimeridian *)
Theorem xr_crossing b d : (long_max b < long_min b)%Q -> times_ok (time_range b) ->
  (forall p, In p d -> (-180 <= p_long p <= 180)%Q) ->
  selected (belongs_crossing b) d (xr_trim_rows b d).
Proof.
  intros H T Hd. apply selected_filter_in. intros p Hp. specialize (Hd p Hp). unfold belongs_crossing.
  rewrite andb_true_iff, in_time_spec by auto. unfold xr_spatial.
  destruct (qltb_spec (long_min b) (long_max b)); [exfalso; lra|].
  rewrite !andb_true_iff, orb_true_iff, !andb_true_iff, !negb_true_iff, !qeqb_false, !qleb_true.
  assert (X : forall a c, ~ (a == c)%Q -> (c <= a)%Q -> (c < a)%Q).
  { intros a c N L. apply Qle_lteq in L as [L|L]; auto. exfalso. apply N. lra. }
  split.
  - intros (((((A1 & A2) & A3) & A4) & A5) & A6). split; [split; auto; apply X; auto|]. split; [|auto].
    destruct A4 as [[_ A4]|[A4 _]]; [right; auto|left; apply X; auto].
  - intros ((A1 & A2) & A3 & A4). split; auto. split; [split; [split; [lra|intros E; lra]|]|].
    + destruct A3; [right; lra|left; lra].
    + intros E. destruct A3; lra.
Qed.

(** A DataFrame keeps the points of the complementary longitudes instead. *)
Theorem df_crossing b d : (long_max b < long_min b)%Q -> times_ok (time_range b) ->
  selected (fun p => (lat_min b < p_lat p <= lat_max b)%Q /\
                     ~ (long_min b < p_long p \/ p_long p <= long_max b)%Q /\ on_date b p) d (df_trim b d).
Proof.
  intros H T. apply selected_filter. intros p.
  rewrite andb_true_iff, in_time_spec by auto. unfold df_spatial.
  destruct (qltb_spec (long_min b) (long_max b)); [exfalso; lra|].
  rewrite !andb_true_iff, !qltb_true, !qleb_true. split.
  - intros ((((A1 & A2) & A3) & A4) & A5). split; auto. split; auto. intros [B|B]; lra.
  - intros (A1 & A2 & A3). split; auto. split; [split; [lra|]|].
    + apply Qnot_lt_le. intros L. apply A2; auto.
    + apply Qnot_le_lt. intros L. apply A2; auto.
Qed.
