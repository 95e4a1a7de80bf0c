(** Proofs about the lookup tables. *)
From Coq Require Import Permutation Sorted.
From Verif Require Import Base QLib Geo Cell Loaders Spec AggProofs Dates DateSpec CalProofs Lut LutSpec.
Open Scope Z_scope.

(** ** Seasons and days *)
Lemma lookup_season (north : bool) m : 1 <= m <= 12 ->
  exists s, lookup_month (if north then northern_seasons else southern_seasons) m = Ok s /\ is_season north m s.
Proof.
  intros H. assert (In m [1; 2; 3; 4; 5; 6; 7; 8; 9; 10; 11; 12]) as I by (cbn; lia).
  destruct north; cbn in I; repeat (destruct I as [<-|I]; [eexists; split; [reflexivity|cbn; tauto]|]); destruct I.
Qed.
Lemma season_unique north m s s' : is_season north m s -> is_season north m s' -> s = s'.
Proof. destruct north, s, s'; cbn; intros; try reflexivity; lia. Qed.

Lemma day_is a k d : calendar_date a -> days_after k a d -> d = ord2ymd (ord_of a + Z.of_nat k).
Proof.
  intros C D. destruct (days_after_ord k a d C D) as [Cd E]. destruct a as [[y m] d0], d as [[y' m'] d']. cbn [ord_of]. rewrite E.
  symmetry. apply ord2ymd_inv, calendar_valid, Cd.
Qed.
Lemma day_ex a k : calendar_date a -> days_after k a (ord2ymd (ord_of a + Z.of_nat k)).
Proof.
  intros C. pose proof (ord2ymd_shift (ord_of a) k) as H. replace (ord2ymd (ord_of a)) with a in H; [exact H|].
  destruct a as [[y m] d]. cbn [ord_of]. symmetry. apply ord2ymd_inv, calendar_valid, C.
Qed.
Lemma day_month a k y m d : calendar_date a -> days_after k a (y, m, d) -> month (ord_of a + Z.of_nat k) = m.
Proof. intros C D. unfold month. rewrite <- (day_is a k _ C D). reflexivity. Qed.
Lemma month_range n : 1 <= month n <= 12.
Proof. unfold month. pose proof (ord2ymd_ok n) as H. destruct (ord2ymd n) as [[y m] d]. apply H. Qed.

Definition days (a : Z * Z * Z) (n : nat) : list Z := map (fun i => ord_of a + Z.of_nat i) (seq 0 (S n)).
Lemma dates_ok b a n : days_are b a n -> dates_of b = Ok (days a n).
Proof.
  intros (e & C & D & T & L & H). unfold dates_of, time_min, time_max. rewrite T. cbn [bind].
  destruct (days_after_ord n a e C D) as [_ E]. change (ord_of a + Z.of_nat n = ord_of e) in E.
  unfold date_range, pandas_day. assert ((ymd2ord 1677 9 22 <=? ord_of a) && (ord_of a <=? ymd2ord 2262 4 11) &&
    ((ymd2ord 1677 9 22 <=? ord_of e) && (ord_of e <=? ymd2ord 2262 4 11)) = true) as ->.
  { rewrite !andb_true_iff, !Z.leb_le. lia. }
  unfold days. do 3 f_equal. lia.
Qed.
Lemma in_days a n t : In t (days a n) <-> exists k, (k <= n)%nat /\ t = ord_of a + Z.of_nat k.
Proof.
  unfold days. rewrite in_map_iff. split.
  - intros (k & <- & I). apply in_seq in I. exists k. split; [lia|reflexivity].
  - intros (k & H & ->). exists k. split; [reflexivity|]. apply in_seq. lia.
Qed.

(** ** drop_duplicates and sort *)
Lemma dd_sub {A} eqb : forall (l seen : list A) x, In x (drop_duplicates eqb seen l) -> In x l.
Proof.
  induction l as [|y l IH]; intros seen x H; [destruct H|]. cbn in H. destruct (existsb (eqb y) seen).
  - right. exact (IH _ _ H).
  - destruct H as [->|H]; [left; reflexivity|right; exact (IH _ _ H)].
Qed.
Lemma dd_all {A} eqb : (forall x : A, eqb x x = true) -> forall l seen x, In x l ->
  exists y, (In y seen \/ In y (drop_duplicates eqb seen l)) /\ eqb x y = true.
Proof.
  intros R. induction l as [|z l IH]; intros seen x H; [destruct H|]. cbn. destruct H as [->|H].
  - destruct (existsb (eqb x) seen) eqn:E.
    + apply existsb_exists in E. destruct E as (y & I & E). exists y. split; [left; exact I|exact E].
    + exists x. split; [right; left; reflexivity|apply R].
  - destruct (existsb (eqb z) seen) eqn:E; [exact (IH seen x H)|].
    destruct (IH (z :: seen) x H) as (y & [[->|I]|I] & Y); exists y; (split; [|exact Y]); [right; left; reflexivity|left; exact I|right; right; exact I].
Qed.
Lemma dd_fresh {A} eqb : forall (l seen : list A) x, In x (drop_duplicates eqb seen l) -> forall y, In y seen -> eqb x y = false.
Proof.
  induction l as [|z l IH]; intros seen x H y I; [destruct H|]. cbn in H. destruct (existsb (eqb z) seen) eqn:E; [exact (IH seen x H y I)|].
  destruct H as [<-|H]; [|exact (IH (z :: seen) x H y (or_intror I))].
  destruct (eqb z y) eqn:F; [|reflexivity]. assert (existsb (eqb z) seen = true) as X by (apply existsb_exists; exists y; split; assumption). congruence.
Qed.
Lemma dd_keys {A K} eqb (key : A -> K) : forall (l seen : list A),
  (forall x y, In x l -> In y l -> key x = key y -> eqb x y = true) -> NoDup (map key (drop_duplicates eqb seen l)).
Proof.
  induction l as [|z l IH]; intros seen H; [constructor|]. cbn. assert (forall x y, In x l -> In y l -> key x = key y -> eqb x y = true) as H'.
  { intros x y Ix Iy. apply H; right; assumption. }
  destruct (existsb (eqb z) seen); [exact (IH seen H')|]. cbn [map]. constructor; [|exact (IH _ H')].
  intros I. apply in_map_iff in I. destruct I as (x & E & I). pose proof (dd_fresh eqb l (z :: seen) x I z (or_introl eq_refl)) as F.
  rewrite (H x z) in F; [discriminate|right; exact (dd_sub _ _ _ _ I)|left; reflexivity|exact E].
Qed.
Lemma insert_perm {G} (r : lrow G) l : Permutation (insert_row r l) (r :: l).
Proof.
  induction l as [|x l IH]; [reflexivity|]. cbn. destruct (r_time r <=? r_time x); [reflexivity|]. rewrite IH. apply perm_swap.
Qed.
Lemma sort_perm {G} (l : list (lrow G)) : Permutation (sort_rows l) l.
Proof. induction l as [|x l IH]; [reflexivity|]. cbn. rewrite insert_perm. apply perm_skip, IH. Qed.
Lemma insert_sorted {G} (r : lrow G) l : StronglySorted (fun a b => r_time a <= r_time b) l ->
  StronglySorted (fun a b => r_time a <= r_time b) (insert_row r l).
Proof.
  induction 1 as [|x l S IH F]; [repeat constructor|]. cbn. destruct (r_time r <=? r_time x) eqn:E.
  - apply Z.leb_le in E. constructor; [constructor; assumption|]. constructor; [exact E|].
    eapply Forall_impl; [|exact F]. cbn. intros; lia.
  - apply Z.leb_gt in E. constructor; [exact IH|]. apply Forall_forall. intros y I.
    apply (Permutation_in y (insert_perm r l)) in I. destruct I as [<-|I]; [lia|]. exact (proj1 (Forall_forall _ _) F y I).
Qed.
Lemma sort_sorted {G} (l : list (lrow G)) : StronglySorted (fun a b => r_time a <= r_time b) (sort_rows l).
Proof. induction l as [|x l IH]; [constructor|]. cbn. apply insert_sorted, IH. Qed.

Lemma row_eqb_true o a b : row_eqb o a b = true <-> r_time a = r_time b /\ r_geom a = r_geom b /\ (r_val a == r_val b)%Q.
Proof.
  unfold row_eqb. rewrite !andb_true_iff, Z.eqb_eq, qeqb_true. destruct (g_eq o (r_geom a) (r_geom b)); split; intros; intuition congruence.
Qed.
(** A table made by dropping duplicates and sorting holds the same rows. *)
Lemma table_of o l wanted : table_is l wanted -> table_is (sort_rows (drop_duplicates (row_eqb o) [] l)) wanted.
Proof.
  intros [H1 H2]. split.
  - intros r I. apply H1. apply (Permutation_in r (sort_perm _)), dd_sub in I. exact I.
  - intros t g v W. destruct (H2 t g v W) as (r & I & E1 & E2 & E3).
    destruct (dd_all (row_eqb o)) with (l := l) (seen := @nil (lrow (geom o))) (x := r) as (y & [[]|Iy] & E).
    { intros x. apply row_eqb_true. repeat split; reflexivity. }
    { exact I. }
    apply row_eqb_true in E. destruct E as (F1 & F2 & F3). exists y. split; [exact (Permutation_in y (Permutation_sym (sort_perm _)) Iy)|].
    split; [congruence|]. split; [congruence|]. rewrite <- F3. exact E3.
Qed.
Lemma one_each_of o l : (forall x y, In x l -> In y l -> r_time x = r_time y -> r_geom x = r_geom y -> (r_val x == r_val y)%Q) ->
  one_each (sort_rows (drop_duplicates (row_eqb o) [] l)).
Proof.
  intros H. unfold one_each. eapply Permutation_NoDup; [apply Permutation_map, Permutation_sym, sort_perm|].
  apply dd_keys. intros x y Ix Iy E. injection E as E1 E2. apply row_eqb_true. repeat split; try assumption. apply H; assumption.
Qed.

(** ** Density *)
Lemma mapM_all {A B} (f : A -> res B) (P : A -> B -> Prop) : forall l, (forall x, In x l -> exists v, f x = Ok v /\ P x v) ->
  exists vs, mapM f l = Ok vs /\ Forall2 P l vs.
Proof.
  induction l as [|x l IH]; intros H; [exists []; split; [reflexivity|constructor]|].
  destruct (H x (or_introl eq_refl)) as (v & E & Pv). destruct IH as (vs & E' & F); [intros y I; apply H; right; exact I|].
  exists (v :: vs). split; [cbn [mapM]; rewrite E; cbn [bind]; rewrite E'; reflexivity|constructor; assumption].
Qed.
Lemma Forall2_in_l {A B} (P : A -> B -> Prop) : forall l m, Forall2 P l m -> forall x, In x l -> exists y, In y m /\ P x y.
Proof. induction 1 as [|a b l m p F IH]; intros x [].
  - subst. exists b. split; [left; reflexivity|exact p].
  - destruct (IH x H) as (y & I & Q). exists y. split; [right; exact I|exact Q].
Qed.
Lemma Forall2_in_r {A B} (P : A -> B -> Prop) : forall l m, Forall2 P l m -> forall y, In y m -> exists x, In x l /\ P x y.
Proof. induction 1 as [|a b l m p F IH]; intros y [].
  - subst. exists a. split; [left; reflexivity|exact p].
  - destruct (IH y H) as (x & I & Q). exists x. split; [right; exact I|exact Q].
Qed.

Definition hemi_rows (o : geometry) (b : boundary) (north : bool) (t : Z) (r : lrow (geom o)) : Prop :=
  r_time r = t /\ r_geom r = part o (half_globe north) b /\ exists s, is_season north (month t) s /\ r_val r = densities s.
Lemma density_rows_ok o b ds (north : bool) : exists rs, density_rows o b ds north = Ok rs /\ Forall2 (hemi_rows o b north) ds rs.
Proof.
  apply mapM_all. intros t _. destruct (lookup_season north (month t) (month_range t)) as (s & E & S). rewrite E. cbn [bind].
  eexists. split; [reflexivity|]. split; [reflexivity|]. split; [reflexivity|]. exists s. split; [exact S|reflexivity].
Qed.

Theorem density_table : forall o b a n, days_are b a n ->
  exists rows, density_data o b = Ok rows /\ table_is rows (density_wanted o b a n) /\
    StronglySorted (fun r r' => r_time r <= r_time r') rows /\
    (apart o b [half_globe true; half_globe false] -> one_each rows).
Proof.
  intros o b a n D. unfold density_data. rewrite (dates_ok b a n D). cbn [bind].
  destruct D as (e & C & _). destruct (density_rows_ok o b (days a n) true) as (rn & -> & Fn). destruct (density_rows_ok o b (days a n) false) as (rs & -> & Fs).
  cbn [bind]. eexists. split; [reflexivity|].
  set (l := filter _ _).
  assert (forall r, In r l <-> usable o (r_geom r) = true /\ exists north t, In t (days a n) /\ hemi_rows o b north t r /\ In r (if north then rn else rs)) as L.
  { intros r. unfold l. rewrite filter_In, in_app_iff. split.
    - intros [[I|I] U]; (split; [exact U|]); [exists true|exists false].
      + destruct (Forall2_in_r _ _ _ Fn r I) as (t & It & H). exists t. split; [exact It|split; [exact H|exact I]].
      + destruct (Forall2_in_r _ _ _ Fs r I) as (t & It & H). exists t. split; [exact It|split; [exact H|exact I]].
    - intros (U & [|] & t & _ & _ & I); split; auto. }
  split; [|split; [apply sort_sorted|]].
  - apply table_of. split.
    + intros r I. apply L in I. destruct I as (U & north & t & It & (E1 & E2 & s & S & E3) & _). apply in_days in It. destruct It as (k & K & ->).
      destruct (ord2ymd (ord_of a + Z.of_nat k)) as [[y m] d] eqn:O. pose proof (day_ex a k C) as Dk. rewrite O in Dk.
      exists k, y, m, d, north, s. split; [split; [exact K|exact Dk]|]. split; [exact E1|]. split; [exact E2|]. split; [exact U|].
      rewrite (day_month a k y m d C Dk) in S. split; [exact S|]. rewrite E3. destruct s; reflexivity.
    + intros t g v (k & y & m & d & north & s & [K Dk] & -> & -> & U & S & V).
      assert (In (ord_of a + Z.of_nat k) (days a n)) as It by (apply in_days; exists k; split; [exact K|reflexivity]).
      assert (exists r, In r (if north then rn else rs) /\ hemi_rows o b north (ord_of a + Z.of_nat k) r) as (r & Ir & H).
      { destruct north; [exact (Forall2_in_l _ _ _ Fn _ It)|exact (Forall2_in_l _ _ _ Fs _ It)]. }
      pose proof H as (E1 & E2 & s' & S' & E3). exists r. split; [apply L; split; [rewrite E2; exact U|]|].
      * exists north, (ord_of a + Z.of_nat k). split; [exact It|]. split; [exact H|exact Ir].
      * split; [exact E1|]. split; [exact E2|]. rewrite (day_month a k y m d C Dk) in S'. rewrite E3, (season_unique north m s' s S' S). destruct s; cbn in V; rewrite V; reflexivity.
  - intros Ap. apply one_each_of. intros x y Ix Iy Et Eg. apply L in Ix, Iy.
    destruct Ix as (U & north & t & _ & (E1 & E2 & s & S & E3) & _). destruct Iy as (_ & north' & t' & _ & (F1 & F2 & s' & S' & F3) & _).
    assert (t = t') as -> by congruence.
    assert (north = north') as ->.
    { destruct north, north'; try reflexivity; exfalso.
      - assert (0%nat = 1%nat) as X; [|discriminate X]. eapply Ap; [reflexivity|reflexivity| |]; congruence.
      - assert (1%nat = 0%nat) as X; [|discriminate X]. eapply Ap; [reflexivity|reflexivity| |]; congruence. }
    rewrite E3, F3, (season_unique _ _ _ _ S S'). reflexivity.
Qed.

(** ** Thickness *)
Lemma region_seasons r : In r regions -> rg_seasons r = (if northern (rg_shape r) then northern_seasons else southern_seasons).
Proof. intros I. cbn in I. repeat (destruct I as [<-|I]; [reflexivity|]). destruct I. Qed.
Lemma region_value_ok r m : In r regions -> 1 <= m <= 12 ->
  exists s, region_value r m = Ok (rg_values r s) /\ is_season (northern (rg_shape r)) m s.
Proof.
  intros I H. unfold region_value. rewrite (region_seasons r I). destruct (lookup_season (northern (rg_shape r)) m H) as (s & -> & S).
  exists s. split; [reflexivity|exact S].
Qed.
Lemma region_rows_ok o g r ds : In r regions -> ds <> [] ->
  exists rs, region_rows o g r ds = Ok rs /\ rs <> [] /\
    forall x, In x rs <-> exists t t' s, In t ds /\ In t' ds /\ is_season (northern (rg_shape r)) (month t') s /\ x = mkRow t g (rg_values r s).
Proof.
  intros I N. unfold region_rows.
  destruct (mapM_all (fun day => v <- region_value r (month day) ;; Ok (map (fun t => mkRow t g v) ds))
    (fun t' l => exists s, is_season (northern (rg_shape r)) (month t') s /\ l = map (fun t => mkRow t g (rg_values r s)) ds) ds) as (fs & E & F).
  { intros t' _. destruct (region_value_ok r (month t') I (month_range t')) as (s & -> & S). cbn [bind]. eexists. split; [reflexivity|].
    exists s. split; [exact S|reflexivity]. }
  assert (forall x, In x (List.concat fs) <-> exists t t' s, In t ds /\ In t' ds /\ is_season (northern (rg_shape r)) (month t') s /\ x = mkRow t g (rg_values r s)) as X.
  { intros x. rewrite in_concat. split.
    - intros (l & Il & Ix). destruct (Forall2_in_r _ _ _ F l Il) as (t' & It' & s & S & ->). apply in_map_iff in Ix. destruct Ix as (t & <- & It).
      exists t, t', s. repeat split; assumption.
    - intros (t & t' & s & It & It' & S & ->). destruct (Forall2_in_l _ _ _ F t' It') as (l & Il & s' & S' & ->).
      exists (map (fun t => mkRow t g (rg_values r s')) ds). split; [exact Il|]. rewrite (season_unique _ _ _ _ S S').
      apply in_map_iff. exists t. split; [reflexivity|exact It]. }
  exists (List.concat fs). destruct ds as [|d ds]; [contradiction|]. rewrite E. split; [reflexivity|]. split; [|exact X].
  intros Z. destruct (region_value_ok r (month d) I (month_range d)) as (s & _ & S).
  assert (In (mkRow d g (rg_values r s)) (List.concat fs)) as Y.
  { apply X. exists d, d, s. split; [left; reflexivity|]. split; [left; reflexivity|]. split; [exact S|reflexivity]. }
  rewrite Z in Y. destruct Y.
Qed.
Definition region_part o b r : geom o := part o (rg_shape r) b.
Lemma all_rows o b ds : ds <> [] -> forall rs acc, (forall r, In r rs -> In r regions) ->
  exists l, foldM (add_region o b ds) acc rs = Ok l /\
    forall x, In x l <-> In x acc \/ exists r t t' s, In r rs /\ usable o (region_part o b r) = true /\ In t ds /\ In t' ds /\
      is_season (northern (rg_shape r)) (month t') s /\ x = mkRow t (region_part o b r) (rg_values r s).
Proof.
  intros N. induction rs as [|r rs IH]; intros acc Sub.
  - exists acc. split; [reflexivity|]. intros x. split; [left; assumption|]. intros [H|(r & t & t' & s & [] & _)]. exact H.
  - cbn [foldM]. unfold add_region at 1. change (g_inter o (g_shape o (rg_shape r)) (g_shape o (Rect b))) with (region_part o b r).
    assert (forall r', In r' rs -> In r' regions) as Sub' by (intros r' I; apply Sub; right; exact I).
    destruct (usable o (region_part o b r)) eqn:U.
    + destruct (region_rows_ok o (region_part o b r) r ds (Sub r (or_introl eq_refl)) N) as (new & -> & _ & X). cbn [bind].
      destruct (IH (acc ++ new)%list Sub') as (l & El & L). exists l. split; [exact El|]. intros x. rewrite L, in_app_iff, X. split.
      * intros [[H|(t & t' & s & H)]|(r' & t & t' & s & I & H)]; [left; exact H|right; exists r, t, t', s; split; [left; reflexivity|split; [exact U|exact H]]|].
        right. exists r', t, t', s. split; [right; exact I|exact H].
      * intros [H|(r' & t & t' & s & [<-|I] & U' & H)]; [left; left; exact H|left; right; exists t, t', s; exact H|].
        right. exists r', t, t', s. split; [exact I|split; [exact U'|exact H]].
    + cbn [bind]. destruct (IH acc Sub') as (l & El & L). exists l. split; [exact El|]. intros x. rewrite L. split.
      * intros [H|(r' & t & t' & s & I & H)]; [left; exact H|]. right. exists r', t, t', s. split; [right; exact I|exact H].
      * intros [H|(r' & t & t' & s & [<-|I] & U' & H)]; [left; exact H|congruence|]. right. exists r', t, t', s. split; [exact I|split; [exact U'|exact H]].
Qed.

Lemma wanted_gen o b a n : calendar_date a -> forall t g v,
  thickness_wanted false o b a n t g v <-> exists r t0 t' s, In r regions /\ usable o (region_part o b r) = true /\ In t0 (days a n) /\ In t' (days a n) /\
      is_season (northern (rg_shape r)) (month t') s /\ t = t0 /\ g = region_part o b r /\ (v == rg_values r s)%Q.
Proof.
  intros C t g v. split.
  - intros (r & k & k' & y & m & d & s & Ir & K & _ & [K' D] & -> & -> & U & S & V). exists r, (ord_of a + Z.of_nat k), (ord_of a + Z.of_nat k'), s.
    rewrite (day_month a k' y m d C D). split; [exact Ir|]. split; [exact U|]. split; [apply in_days; exists k; auto|]. split; [apply in_days; exists k'; auto|].
    split; [exact S|]. repeat split. exact V.
  - intros (r & t0 & t' & s & Ir & U & I0 & I' & S & -> & -> & V). apply in_days in I0, I'. destruct I0 as (k & K & ->), I' as (k' & K' & ->).
    destruct (ord2ymd (ord_of a + Z.of_nat k')) as [[y m] d] eqn:O. pose proof (day_ex a k' C) as Dk. rewrite O in Dk. rewrite (day_month a k' y m d C Dk) in S.
    exists r, k, k', y, m, d, s. split; [exact Ir|]. split; [exact K|]. split; [discriminate|]. split; [split; assumption|].
    split; [reflexivity|]. split; [reflexivity|]. split; [exact U|]. split; [exact S|exact V].
Qed.

Theorem thickness_table : forall o b a n, days_are b a n -> (exists r, In r regions /\ usable o (part o (rg_shape r) b) = true) ->
  exists rows, thickness_data o b = Ok rows /\ table_is rows (thickness_wanted false o b a n) /\
    StronglySorted (fun r r' => r_time r <= r_time r') rows /\
    (apart o b (map rg_shape regions) -> one_season a n -> one_each rows).
Proof.
  intros o b a n D (r0 & I0 & U0). unfold thickness_data. rewrite (dates_ok b a n D). cbn [bind]. destruct D as (e & C & _).
  assert (days a n <> []) as N by discriminate.
  destruct (all_rows o b (days a n) N regions [] (fun r I => I)) as (l & E & L). rewrite E. cbn [bind]. clear E.
  assert (l <> []) as Nl.
  { intros Z. destruct (region_value_ok r0 (month (ord_of a)) I0 (month_range _)) as (s & _ & S).
    assert (In (ord_of a) (days a n)) as Ia by (apply in_days; exists 0%nat; split; [lia|cbn; lia]).
    assert (In (mkRow (ord_of a) (region_part o b r0) (rg_values r0 s)) l) as Y.
    { apply L. right. exists r0, (ord_of a), (ord_of a), s. repeat (split; [eassumption|]). reflexivity. }
    rewrite Z in Y. destruct Y. }
  destruct l as [|z l']; [contradiction|]. set (l := z :: l') in *. clearbody l. eexists. split; [reflexivity|].
  split; [|split; [apply sort_sorted|]].
  - apply table_of. split.
    + intros x I. apply L in I. destruct I as [[]|(r & t & t' & s & Ir & U & It & It' & S & ->)]. cbn [r_time r_geom r_val].
      apply wanted_gen; [exact C|]. exists r, t, t', s. repeat (split; [first [assumption|reflexivity]|]). reflexivity.
    + intros t g v W. apply wanted_gen in W; [|exact C]. destruct W as (r & t0 & t' & s & Ir & U & It & It' & S & -> & -> & V).
      eexists. split; [apply L; right; exists r, t0, t', s; repeat (split; [eassumption|]); reflexivity|]. cbn. split; [reflexivity|]. split; [reflexivity|].
      symmetry. exact V.
  - intros Ap OS. apply one_each_of. intros x y Ix Iy Et Eg. apply L in Ix, Iy.
    destruct Ix as [[]|(r & t & t' & s & Ir & U & It & It' & S & ->)]. destruct Iy as [[]|(r1 & t1 & t1' & s1 & Ir1 & U1 & It1 & It1' & S1 & ->)].
    cbn [r_time r_geom r_val] in *.
    assert (r = r1) as <-.
    { apply In_nth_error in Ir, Ir1. destruct Ir as (i & Ei), Ir1 as (j & Ej).
      assert (i = j) as <-; [|congruence]. eapply Ap; [rewrite nth_error_map, Ei; reflexivity|rewrite nth_error_map, Ej; reflexivity|exact Eg|exact U]. }
    apply in_days in It', It1'. destruct It' as (k & K & ->), It1' as (k1 & K1 & ->).
    destruct (ord2ymd (ord_of a + Z.of_nat k)) as [[y m] d] eqn:O. pose proof (day_ex a k C) as Dk. rewrite O in Dk. rewrite (day_month a k y m d C Dk) in S.
    destruct (ord2ymd (ord_of a + Z.of_nat k1)) as [[y1 m1] d1] eqn:O1. pose proof (day_ex a k1 C) as Dk1. rewrite O1 in Dk1. rewrite (day_month a k1 y1 m1 d1 C Dk1) in S1.
    pose proof (OS _ k y m d k1 y1 m1 d1 s (conj K Dk) (conj K1 Dk1) S) as S2. rewrite (season_unique _ _ _ _ S1 S2). reflexivity.
Qed.
Lemma day_total a n k : calendar_date a -> (k <= n)%nat -> exists y m d, day_of a n k y m d /\ 1 <= m <= 12.
Proof.
  intros C K. pose proof (day_ex a k C) as Dk. pose proof (ord2ymd_ok (ord_of a + Z.of_nat k)) as V.
  destruct (ord2ymd (ord_of a + Z.of_nat k)) as [[y m] d]. exists y, m, d. split; [split; [exact K|exact Dk]|]. apply V.
Qed.
Lemma season_total (north : bool) m : 1 <= m <= 12 -> exists s, is_season north m s.
Proof. intros H. destruct (lookup_season north m H) as (s & _ & S). exists s. exact S. Qed.
(** In one season every day's value is its own. *)
Lemma wanted_right o b a n t g v : calendar_date a -> one_season a n ->
  thickness_wanted false o b a n t g v <-> thickness_wanted true o b a n t g v.
Proof.
  intros C OS. split; intros (r & k & k' & y & m & d & s & Ir & K & R & D & Et & Eg & U & S & V).
  - destruct (day_total a n k C K) as (y1 & m1 & d1 & D1 & _).
    exists r, k, k, y1, m1, d1, s. repeat (split; [first [assumption|reflexivity]|]). split; [|exact V]. exact (OS _ _ _ _ _ _ _ _ _ _ D D1 S).
  - exists r, k, k', y, m, d, s. repeat (split; [first [assumption|discriminate]|]). exact V.
Qed.

(** ** Regions cover the globe, each point once *)
Lemma regions_once : forall x y, (-180 < x <= 180)%Q -> (-90 < y <= 90)%Q ->
  exists i r, nth_error regions i = Some r /\ in_shape (rg_shape r) x y /\
    forall j r', nth_error regions j = Some r' -> in_shape (rg_shape r') x y -> j = i.
Proof.
  intros x y Hx Hy.
  assert (forall j r', nth_error regions j = Some r' ->
    (j = 0%nat /\ (in_shape (rg_shape r') x y <-> -180 < x <= -130 /\ -90 < y <= 0)) \/ (j = 1%nat /\ (in_shape (rg_shape r') x y <-> -130 < x <= -60 /\ -90 < y <= 0)) \/
    (j = 2%nat /\ (in_shape (rg_shape r') x y <-> -60 < x <= -45 /\ -90 < y <= 0)) \/ (j = 3%nat /\ (in_shape (rg_shape r') x y <-> -45 < x <= 20 /\ -90 < y <= 0)) \/
    (j = 4%nat /\ (in_shape (rg_shape r') x y <-> 20 < x <= 90 /\ -90 < y <= 0)) \/ (j = 5%nat /\ (in_shape (rg_shape r') x y <-> 90 < x <= 160 /\ -90 < y <= 0)) \/
    (j = 6%nat /\ (in_shape (rg_shape r') x y <-> 160 < x <= 180 /\ -90 < y <= 0)) \/ (j = 7%nat /\ (in_shape (rg_shape r') x y <-> 12 < x <= 32 /\ 54 < y <= 66)) \/
    (j = 8%nat /\ (in_shape (rg_shape r') x y <-> (0 < y <= 90 /\ -180 < x <= 180) /\ ~ (12 < x <= 32 /\ 54 < y <= 66))))%Q as Cases.
  { intros j r' E. do 9 (destruct j as [|j]; [injection E as <-; cbn; unfold mem; cbn; tauto|]). destruct j; discriminate. }
  assert (exists i r, nth_error regions i = Some r /\ in_shape (rg_shape r) x y) as (i & r & E & I).
  { destruct (Qlt_le_dec 0 y) as [Y|Y].
    - destruct (Qlt_le_dec 12 x), (Qlt_le_dec 32 x), (Qlt_le_dec 54 y), (Qlt_le_dec 66 y);
        first [exists 7%nat; eexists; split; [reflexivity|]; cbn; unfold mem; cbn; lra
              |exists 8%nat; eexists; split; [reflexivity|]; cbn; unfold mem; cbn; lra].
    - destruct (Qlt_le_dec (-130) x); [|exists 0%nat; eexists; split; [reflexivity|]; cbn; unfold mem; cbn; lra].
      destruct (Qlt_le_dec (-60) x); [|exists 1%nat; eexists; split; [reflexivity|]; cbn; unfold mem; cbn; lra].
      destruct (Qlt_le_dec (-45) x); [|exists 2%nat; eexists; split; [reflexivity|]; cbn; unfold mem; cbn; lra].
      destruct (Qlt_le_dec 20 x); [|exists 3%nat; eexists; split; [reflexivity|]; cbn; unfold mem; cbn; lra].
      destruct (Qlt_le_dec 90 x); [|exists 4%nat; eexists; split; [reflexivity|]; cbn; unfold mem; cbn; lra].
      destruct (Qlt_le_dec 160 x); [|exists 5%nat; eexists; split; [reflexivity|]; cbn; unfold mem; cbn; lra].
      exists 6%nat; eexists; split; [reflexivity|]; cbn; unfold mem; cbn; lra. }
  exists i, r. split; [exact E|]. split; [exact I|]. intros j r' E' I'.
  pose proof (Cases i r E) as C1. pose proof (Cases j r' E') as C2. clear Cases E E'.
  repeat (destruct C1 as [[-> C1]|C1]); [..|destruct C1 as [-> C1]]; apply C1 in I; clear C1;
    (repeat (destruct C2 as [[-> C2]|C2]); [..|destruct C2 as [-> C2]]; apply C2 in I'; clear C2; first [reflexivity|exfalso; lra]).
Qed.

(** ** verify_data *)
Lemma same_index_one {G} : forall (rows : list (lrow G)) r, NoDup (map r_time rows) -> In r rows -> same_index rows (r_time r) = [r].
Proof.
  unfold same_index. induction rows as [|x rows IH]; intros r N I; [destruct I|]. cbn in N. inversion N as [|? ? NI N']; subst. cbn.
  destruct I as [->|I].
  - rewrite Z.eqb_refl. f_equal. clear IH N N'. induction rows as [|y rows IH]; [reflexivity|]. cbn in NI |- *.
    destruct (r_time y =? r_time r) eqn:E; [apply Z.eqb_eq in E; exfalso; apply NI; left; exact E|]. apply IH. intros H. apply NI. right. exact H.
  - destruct (r_time x =? r_time r) eqn:E; [|exact (IH r N' I)]. apply Z.eqb_eq in E. exfalso. apply NI. rewrite E. apply in_map, I.
Qed.
Lemma combine_const {A B} (x : A) : forall l : list B, combine (List.concat (map (fun _ => [x]) l)) l = map (fun y => (x, y)) l.
Proof. induction l as [|y l IH]; [reflexivity|]. cbn. rewrite IH. reflexivity. Qed.
Lemma length_const {A B} (x : A) : forall l : list B, List.length (List.concat (map (fun _ => [x]) l)) = List.length l.
Proof. induction l as [|y l IH]; [reflexivity|]. cbn. rewrite IH. reflexivity. Qed.
Theorem verify_distinct : forall o rows, rows <> [] -> NoDup (map r_time rows) -> (forall r, In r rows -> g_kind o (r_geom r) <> KOther) ->
  verify_data o rows = Ok (unpacked o rows).
Proof.
  intros o rows N D K. unfold verify_data.
  assert (forall l, (forall r, In r l -> In r rows) -> exists rs, mapM (verify_row o rows) l = Ok rs /\
    map (fun r => (r_geom r, r_val r)) (List.concat rs) = unpacked o l) as X.
  { induction l as [|r l IH]; intros Sub; [exists []; split; reflexivity|].
    destruct IH as (rs & E & U); [intros x I; apply Sub; right; exact I|]. pose proof (Sub r (or_introl eq_refl)) as Ir.
    assert (exists new, verify_row o rows r = Ok new /\ map (fun r => (r_geom r, r_val r)) new = map (fun g => (g, r_val r)) (polygons o (r_geom r))) as (new & En & Un).
    { unfold verify_row, polygons. rewrite (same_index_one rows r D Ir). destruct (g_kind o (r_geom r)) eqn:G.
      - eexists. split; reflexivity.
      - cbv zeta. rewrite length_const, Nat.eqb_refl, combine_const. eexists. split; [reflexivity|]. rewrite !map_map. reflexivity.
      - exfalso. exact (K r Ir G). }
    exists (new :: rs). split; [cbn [mapM]; rewrite En; cbn [bind]; rewrite E; reflexivity|].
    cbn [List.concat unpacked flat_map]. rewrite map_app, Un. unfold unpacked in U. rewrite U. reflexivity. }
  destruct rows as [|r rows]; [contradiction|]. destruct (X (r :: rows) (fun r I => I)) as (rs & E & U). rewrite E. cbn [bind]. rewrite U. reflexivity.
Qed.
Lemma mapM_error {A B} (f : A -> res B) e : forall l x, In x l -> f x = Err e -> (forall y e', f y = Err e' -> e' = e) -> mapM f l = Err e.
Proof.
  induction l as [|y l IH]; intros x I F A0; [destruct I|]. cbn [mapM]. destruct (f y) as [v|e'] eqn:Y.
  - cbn [bind]. destruct I as [->|I]; [congruence|]. rewrite (IH x I F A0). reflexivity.
  - cbn [bind]. f_equal. exact (A0 y e' Y).
Qed.
Theorem verify_multi_fails : forall o rows r, In r rows -> g_kind o (r_geom r) = KMulti -> g_parts o (r_geom r) <> [] ->
  (2 <= List.length (same_index rows (r_time r)))%nat -> verify_data o rows = Err ValueError.
Proof.
  intros o rows r I G P L. unfold verify_data. destruct rows as [|x rows]; [destruct I|]. rewrite (mapM_error _ ValueError _ r I); [reflexivity| |].
  - unfold verify_row. rewrite G. cbv zeta.
    assert (List.length (List.concat (map (fun _ => same_index (x :: rows) (r_time r)) (g_parts o (r_geom r)))) =
            (List.length (g_parts o (r_geom r)) * List.length (same_index (x :: rows) (r_time r)))%nat) as E.
    { clear. generalize (same_index (x :: rows) (r_time r)). intros s. induction (g_parts o (r_geom r)) as [|p ps IH]; [reflexivity|].
      cbn. rewrite app_length, IH. reflexivity. }
    rewrite E. destruct (g_parts o (r_geom r)) as [|p ps]; [contradiction|].
    destruct (Nat.eqb_spec (List.length (p :: ps) * List.length (same_index (x :: rows) (r_time r))) (List.length (p :: ps))) as [H|H]; [|reflexivity].
    exfalso. cbn [List.length] in H. nia.
  - intros y e. unfold verify_row. destruct (g_kind o (r_geom y)); [discriminate| |congruence]. cbv zeta.
    destruct (Nat.eqb _ _); [discriminate|congruence].
Qed.
(** Polygons only: every row comes once for each row of its day. *)
Theorem verify_repeats : forall o rows, rows <> [] -> (forall r, In r rows -> g_kind o (r_geom r) = KPolygon) ->
  verify_data o rows = Ok (map (fun r => (r_geom r, r_val r)) (flat_map (fun r => same_index rows (r_time r)) rows)).
Proof.
  intros o rows N K. unfold verify_data.
  assert (forall l, (forall r, In r l -> In r rows) -> mapM (verify_row o rows) l = Ok (map (fun r => same_index rows (r_time r)) l)) as X.
  { induction l as [|r l IH]; intros Sub; [reflexivity|]. cbn [mapM]. unfold verify_row at 1. rewrite (K r (Sub r (or_introl eq_refl))). cbn [bind].
    rewrite IH; [reflexivity|]. intros x I. apply Sub. right. exact I. }
  rewrite (X rows (fun r I => I)). destruct rows; [contradiction|]. cbn [bind]. rewrite flat_map_concat_map. reflexivity.
Qed.

(** ** get_value *)
Lemma in_trim o b d p : In p (lut_trim o b d) <-> meeting o b d p.
Proof. unfold lut_trim, meeting. apply filter_In. Qed.
Lemma qsum_const {A} (w : Q) : forall l : list A, (qsum (map (fun _ => w) l) == w * inject_Z (Z.of_nat (List.length l)))%Q.
Proof.
  induction l as [|x l IH]; [unfold qsum; cbn [map fold_right List.length]; change (inject_Z (Z.of_nat 0)) with 0%Q; lra|]. cbn [map List.length]. unfold qsum in *. cbn [fold_right]. rewrite IH, Nat2Z.inj_succ, <- Z.add_1_r, inject_Z_plus.
  change (inject_Z 1) with 1%Q. lra.
Qed.
Lemma qsum_const_weights {A} (w : Q) : forall (l : list A) (vs : list Q), List.length vs = List.length l ->
  (qsum (map (fun p => fst p * snd p)%Q (combine vs (map (fun _ => w) l))) == w * qsum vs)%Q.
Proof.
  induction l as [|x l IH]; intros [|v vs] E; try discriminate; [unfold qsum; cbn [map combine fold_right]; lra|]. cbn [map combine]. unfold qsum in *. cbn [fold_right fst snd].
  rewrite IH by (injection E; auto). lra.
Qed.
Theorem mean_unweighted : forall o b d, lut_trim o b d <> [] ->
  let ps := lut_trim o b d in let w := lut_coverage o b (map fst ps) in
  ((w == 0)%Q -> lut_value o "MEAN" b d = Err ZeroDivisionError) /\
  (~ (w == 0)%Q -> exists v, lut_value o "MEAN" b d = Ok (LNum (Some v)) /\ (v * inject_Z (Z.of_nat (List.length ps)) == qsum (map snd ps))%Q).
Proof.
  intros o b d N ps w. unfold lut_value. fold ps. fold w. cbn [String.eqb Ascii.eqb Bool.eqb]. change (ps <> []) in N. clearbody w. clearbody ps.
  assert (0 < inject_Z (Z.of_nat (List.length ps)))%Q as P.
  { change 0%Q with (inject_Z 0). rewrite <- Zlt_Qlt. destruct ps; [contradiction|]. cbn [List.length]. lia. }
  unfold np_average. 
  assert (forall (X : Type) (a b : X), match ps with [] => a | _ :: _ => b end = b) as NE by (intros; destruct ps; [contradiction|reflexivity]). rewrite NE. clear NE.
  pose proof (qsum_const w ps) as S. pose proof (qsum_const_weights w ps (map snd ps) (map_length _ _)) as T.
  split; intros W.
  - assert (qeqb (qsum (map (fun _ => w) ps)) 0 = true) as ->; [|reflexivity]. apply qeqb_true. rewrite S, W. lra.
  - assert (qeqb (qsum (map (fun _ => w) ps)) 0 = false) as ->.
    { destruct (qeqb _ 0) eqn:Q0; [|reflexivity]. apply qeqb_true in Q0. rewrite S in Q0. apply Qmult_integral in Q0. destruct Q0 as [Q0|Q0]; [contradiction|lra]. }
    cbn [bind]. eexists. split; [reflexivity|]. rewrite T, S. field. split; [|exact W]. lra.
Qed.
Lemma fold_min_spec : forall l x, let m := fold_left (fun a b => if qltb b a then b else a) l x in
  (In m (x :: l)) /\ (forall y, In y (x :: l) -> m <= y)%Q.
Proof.
  induction l as [|z l IH]; intros x; cbn [fold_left]; [split; [left; reflexivity|intros y [<-|[]]; lra]|].
  destruct (IH (if qltb z x then z else x)) as [I H]. destruct (qltb z x) eqn:E; qhyp; (split; [cbn in I |- *; tauto|]).
  - intros y [<-|[<-|Iy]]; [pose proof (H z (or_introl eq_refl)); lra|apply H; left; reflexivity|apply H; right; exact Iy].
  - intros y [<-|[<-|Iy]]; [apply H; left; reflexivity|pose proof (H x (or_introl eq_refl)); lra|apply H; right; exact Iy].
Qed.
Lemma fold_max_spec : forall l x, let m := fold_left (fun a b => if qltb a b then b else a) l x in
  (In m (x :: l)) /\ (forall y, In y (x :: l) -> y <= m)%Q.
Proof.
  induction l as [|z l IH]; intros x; cbn [fold_left]; [split; [left; reflexivity|intros y [<-|[]]; lra]|].
  destruct (IH (if qltb x z then z else x)) as [I H]. destruct (qltb x z) eqn:E; qhyp; (split; [cbn in I |- *; tauto|]).
  - intros y [<-|[<-|Iy]]; [pose proof (H z (or_introl eq_refl)); lra|apply H; left; reflexivity|apply H; right; exact Iy].
  - intros y [<-|[<-|Iy]]; [apply H; left; reflexivity|pose proof (H x (or_introl eq_refl)); lra|apply H; right; exact Iy].
Qed.
Theorem lut_extremes : forall o b d p0, meeting o b d p0 ->
  (exists v, lut_value o "MIN" b d = Ok (LNum (Some v)) /\ (exists p, meeting o b d p /\ snd p = v) /\ forall p, meeting o b d p -> (v <= snd p)%Q) /\
  (exists v, lut_value o "MAX" b d = Ok (LNum (Some v)) /\ (exists p, meeting o b d p /\ snd p = v) /\ forall p, meeting o b d p -> (snd p <= v)%Q).
Proof.
  intros o b d p0 M. apply in_trim in M. unfold lut_value. cbn [String.eqb Ascii.eqb Bool.eqb].
  assert (forall p, meeting o b d p <-> In p (lut_trim o b d)) as E by (intros p; symmetry; apply in_trim).
  destruct (lut_trim o b d) as [|x ps]; [destruct M|]. cbn [map fold_q].
  destruct (fold_min_spec (map snd ps) (snd x)) as [I1 H1]. destruct (fold_max_spec (map snd ps) (snd x)) as [I2 H2].
  change (snd x :: map snd ps) with (map snd (x :: ps)) in *. split; eexists; (split; [reflexivity|split]).
  - apply in_map_iff in I1. destruct I1 as (p & Ep & I). exists p. split; [apply E, I|exact Ep].
  - intros p Mp. apply H1, in_map, E, Mp.
  - apply in_map_iff in I2. destruct I2 as (p & Ep & I). exists p. split; [apply E, I|exact Ep].
  - intros p Mp. apply H2, in_map, E, Mp.
Qed.
Lemma first_half_some {G} : forall (d : list (G * Q)) w acc half, (half <= acc + w * inject_Z (Z.of_nat (List.length d)))%Q -> d <> [] ->
  exists r, first_half d w acc half = Some r /\ In r d.
Proof.
  induction d as [|r d IH]; intros w acc half H N; [contradiction|]. cbn [first_half]. destruct (qleb half (acc + w)) eqn:E; [exists r; split; [reflexivity|left; reflexivity]|].
  qhyp. cbn [List.length] in H. rewrite Nat2Z.inj_succ, <- Z.add_1_r, inject_Z_plus in H. change (inject_Z 1) with 1%Q in H.
  destruct d as [|r' d]; [change (inject_Z (Z.of_nat (List.length (@nil (G * Q))))) with 0%Q in H; lra|]. destruct (IH w (acc + w)%Q half) as (x & F & I); [lra|discriminate|]. exists x. split; [exact F|right; exact I].
Qed.
Theorem median_row : forall o b d p0, meeting o b d p0 -> (0 <= lut_coverage o b (map fst (lut_trim o b d)))%Q ->
  exists r, lut_value o "MEDIAN" b d = Ok (LRow r) /\ meeting o b d r.
Proof.
  intros o b d p0 M W. apply in_trim in M. unfold lut_value. cbn [String.eqb Ascii.eqb Bool.eqb].
  set (w := lut_coverage o b (map fst (lut_trim o b d))) in *.
  pose proof (qsum_const w (lut_trim o b d)) as S.
  destruct (first_half_some (lut_trim o b d) w 0 (qsum (map (fun _ => w) (lut_trim o b d)) / 2)) as (r & F & I).
  - rewrite S. assert (0 <= w * inject_Z (Z.of_nat (List.length (lut_trim o b d))))%Q.
    { apply Qmult_le_0_compat; [exact W|]. change 0%Q with (inject_Z 0). rewrite <- Zle_Qle. lia. }
    unfold Qdiv. change (/ 2)%Q with (1#2)%Q. lra.
  - intros Z. rewrite Z in M. destruct M.
  - exists r. destruct (lut_trim o b d) as [|x l] eqn:T; [destruct M|]. rewrite F. split; [reflexivity|]. apply in_trim. rewrite T. exact I.
Qed.
Theorem hom_answers : forall o edge b lock at_b d,
  (lut_hom o edge b lock at_b d = HET <-> at_b = true /\ exists p, meeting o b d p /\ edge (fst p) (g_shape o (Rect b)) = true) /\
  (lut_hom o edge b lock at_b d = HOM <-> lock = true /\ ~ exists p, meeting o b d p) /\
  lut_hom o edge b lock at_b d <> MIN.
Proof.
  intros o edge b lock at_b d. unfold lut_hom.
  assert (existsb (fun p => g_intersects o p (g_shape o (Rect b))) (map fst (lut_trim o b d)) = true <-> exists p, meeting o b d p) as A.
  { rewrite existsb_exists. split.
    - intros (g & I & _). apply in_map_iff in I. destruct I as (p & _ & I). exists p. apply in_trim, I.
    - intros (p & M). exists (fst p). split; [apply in_map, in_trim, M|apply M]. }
  assert (existsb (fun p => edge p (g_shape o (Rect b))) (map fst (lut_trim o b d)) = true <-> exists p, meeting o b d p /\ edge (fst p) (g_shape o (Rect b)) = true) as B.
  { rewrite existsb_exists. split.
    - intros (g & I & E). apply in_map_iff in I. destruct I as (p & <- & I). exists p. split; [apply in_trim, I|exact E].
    - intros (p & M & E). exists (fst p). split; [apply in_map, in_trim, M|exact E]. }
  destruct (existsb (fun p => g_intersects o p _) _).
  - assert (exists p, meeting o b d p) as Ex by (apply A; reflexivity). cbn [negb].
    destruct at_b; [|split; [split; [discriminate|intros [H _]; discriminate]|split; [split; [discriminate|tauto]|discriminate]]].
    destruct (existsb (fun p => edge p _) _).
    + split; [split; [intros _; split; [reflexivity|apply B; reflexivity]|reflexivity]|]. split; [split; [discriminate|tauto]|discriminate].
    + split; [split; [discriminate|intros [_ H]; apply B in H; discriminate]|]. split; [split; [discriminate|tauto]|discriminate].
  - assert (~ exists p, meeting o b d p) as Ex by (intros H; apply A in H; discriminate). cbn [negb].
    destruct lock.
    + split; [split; [discriminate|intros (_ & p & M & _); exfalso; apply Ex; exists p; exact M]|]. split; [split; auto|discriminate].
    + split; [split; [discriminate|intros (_ & p & M & _); exfalso; apply Ex; exists p; exact M]|].
      split; [split; [discriminate|intros [H _]; discriminate]|discriminate].
Qed.
