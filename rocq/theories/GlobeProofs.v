(** Longitudes and boundaries on the globe: proofs for C35, C36 and C38. *)
From Coq Require Import Qabs.
From Verif Require Import Base Geo Spec MeshSpec EnvSpec GlobeSpec QLib Invariant Grid EnvMerge.
Open Scope Q_scope.

Lemma inject_lt (a b : Z) : (a < b)%Z <-> inject_Z a < inject_Z b.
Proof. rewrite Zlt_Qlt. reflexivity. Qed.
Lemma inject_le (a b : Z) : (a <= b)%Z <-> inject_Z a <= inject_Z b.
Proof. rewrite Zle_Qle. reflexivity. Qed.

(** An integer strictly between -1 and 1. *)
Lemma int_zero (k : Z) : -1 < inject_Z k < 1 -> k = 0%Z.
Proof.
  intros [A B]. change (-1) with (inject_Z (-1)) in A. change 1 with (inject_Z 1) in B.
  rewrite <- inject_lt in A, B. lia.
Qed.
Lemma int_cases (k : Z) : inject_Z k <= -1 \/ k = 0%Z \/ 1 <= inject_Z k.
Proof.
  change (-1) with (inject_Z (-1)). change 1 with (inject_Z 1). rewrite <- !inject_le. lia.
Qed.
Lemma same_refl a : same_meridian a a.
Proof. exists 0%Z. change (inject_Z 0) with 0. lra. Qed.
Lemma same_sym a b : same_meridian a b -> same_meridian b a.
Proof. intros (k & E). exists (- k)%Z. rewrite inject_Z_opp. lra. Qed.
Lemma same_trans a b c : same_meridian a b -> same_meridian b c -> same_meridian a c.
Proof. intros (k & E) (l & F). exists (k + l)%Z. rewrite inject_Z_plus. lra. Qed.

(** ** Longitudes *)
Lemma qmod_360 a : 0 <= qmod a 360 < 360 /\ exists k : Z, a == qmod a 360 + inject_Z k * 360.
Proof.
  pose proof (Qfloor_le (a / 360)) as F1. pose proof (Qlt_floor (a / 360)) as F2.
  rewrite inject_Z_plus in F2. change (inject_Z 1) with 1 in F2. unfold qmod.
  assert (H : a / 360 == a * (1 # 360)) by field.
  generalize dependent (Qfloor (a / 360)). intros z F1 F2. generalize dependent (a / 360). intros q F1 F2 H.
  split; [lra|]. exists z. lra.
Qed.

Lemma domain_range a : in_domain (longitude_domain a).
Proof.
  unfold longitude_domain, in_domain. destruct (qmod_360 (a + 180)) as [R _].
  qsplit; lra.
Qed.
Lemma domain_same a : same_meridian (longitude_domain a) a.
Proof.
  unfold longitude_domain. destruct (qmod_360 (a + 180)) as [_ (k & E)].
  qsplit; try apply same_refl. exists (- k)%Z. rewrite inject_Z_opp. lra.
Qed.
Lemma domain_fix a : in_domain a -> longitude_domain a == a.
Proof.
  unfold in_domain, longitude_domain. intros H. qsplit; try lra.
  rewrite qmod_small; lra.
Qed.
Lemma domain_half a : ~ same_meridian a 180 -> longitude_domain a < 180 /\ -180 < longitude_domain a.
Proof.
  intros N. pose proof (domain_range a) as R. pose proof (domain_same a) as S. unfold in_domain in R.
  split; apply Qnot_le_lt; intro H; apply N.
  - apply same_trans with (longitude_domain a); [apply same_sym; auto|].
    exists 0%Z. change (inject_Z 0) with 0. lra.
  - apply same_trans with (longitude_domain a); [apply same_sym; auto|].
    exists (-1)%Z. change (inject_Z (-1)) with (-1). lra.
Qed.
(** Longitudes in the domain on the same meridian are equal or are -180 and 180. *)
Lemma domain_same_cases a b : in_domain a -> in_domain b -> same_meridian a b ->
  a == b \/ (a == 180 /\ b == -180) \/ (a == -180 /\ b == 180).
Proof.
  unfold in_domain. intros Ha Hb (k & E). destruct (int_cases k) as [K|[K|K]].
  - right; right; lra.
  - subst. left. change (inject_Z 0) with 0 in E. lra.
  - right; left; lra.
Qed.

Lemma qmod_360_small d : 0 <= d <= 360 -> (qmod d 360 == d /\ d < 360) \/ (d == 360 /\ qmod d 360 == 0).
Proof.
  intros H. destruct (Qlt_le_dec d 360).
  - left. split; [apply qmod_small; lra|auto].
  - right. split; [lra|]. apply (qmod_multiple d 360 1); [reflexivity|change (inject_Z 1) with 1; lra].
Qed.

(** The distance in terms of the difference of the two longitudes in the domain. *)
Lemma distance_cases a b : let d := longitude_domain b - longitude_domain a in
  -360 <= d <= 360 /\ same_meridian d (b - a) /\
  ((-180 <= d <= 180 /\ longitude_distance a b == qabs d) \/
   (180 < d /\ longitude_distance a b == 360 - d) \/
   (d < -180 /\ longitude_distance a b == 360 + d)).
Proof.
  intros d. pose proof (domain_range a) as Ra. pose proof (domain_range b) as Rb. unfold in_domain in *.
  assert (Hd : -360 <= d <= 360) by (unfold d; lra). split; [exact Hd|]. split.
  { destruct (domain_same a) as (k & Ea), (domain_same b) as (l & Eb).
    exists (l - k)%Z. unfold Z.sub. rewrite inject_Z_plus, inject_Z_opp. unfold d. lra. }
  unfold longitude_distance. fold d.
  assert (A : 0 <= qabs d <= 360 /\ ((0 <= d /\ qabs d == d) \/ (d <= 0 /\ qabs d == - d))).
  { destruct (Qlt_le_dec d 0).
    - pose proof (qabs_neg d ltac:(lra)). split; [lra|right; split; lra].
    - pose proof (qabs_nonneg d ltac:(lra)). split; [lra|left; split; lra]. }
  destruct A as [A1 A2]. destruct (qmod_360_small (qabs d) A1) as [[M1 M2]|[M1 M2]].
  - destruct (qltb_spec 180 (qmod (qabs d) 360)); destruct A2 as [[A2 A3]|[A2 A3]].
    + right; left; split; lra.
    + right; right; split; lra.
    + left; split; lra.
    + left; split; lra.
  - destruct (qltb_spec 180 (qmod (qabs d) 360)); [exfalso; lra|].
    destruct A2 as [[A2 A3]|[A2 A3]].
    + right; left; split; lra.
    + right; right; split; lra.
Qed.

Lemma distance_range a b : 0 <= longitude_distance a b <= 180.
Proof.
  destruct (distance_cases a b) as (H & _ & [[C1 C2]|[[C1 C2]|[C1 C2]]]); rewrite C2.
  - destruct (Qlt_le_dec (longitude_domain b - longitude_domain a) 0);
      [rewrite qabs_neg by lra|rewrite qabs_nonneg by lra]; lra.
  - lra.
  - lra.
Qed.
Lemma distance_arc a b : exists c, same_meridian c (b - a) /\
  (longitude_distance a b == c \/ longitude_distance a b == - c).
Proof.
  destruct (distance_cases a b) as (H & S & C). set (d := longitude_domain b - longitude_domain a) in *.
  destruct C as [[C1 C2]|[[C1 C2]|[C1 C2]]].
  - exists d. split; [exact S|]. rewrite C2. destruct (Qlt_le_dec d 0).
    + right. apply qabs_neg. lra.
    + left. apply qabs_nonneg. lra.
  - exists (d - 360). split; [|right; lra]. destruct S as (k & E). exists (k + -1)%Z.
    rewrite inject_Z_plus. change (inject_Z (-1)) with (-1). lra.
  - exists (d + 360). split; [|left; lra]. destruct S as (k & E). exists (k + 1)%Z.
    rewrite inject_Z_plus. change (inject_Z 1) with 1. lra.
Qed.
(** Of two numbers on the same meridian, one being at most 180 in size, that one is
    the smaller in size. *)
Lemma shortest c e : same_meridian c e -> -180 <= c <= 180 -> 
  (c == e \/ (180 <= e /\ - e <= c <= e) \/ (e <= -180 /\ e <= c <= - e)).
Proof.
  intros (k & E) H. destruct (int_cases k) as [K|[K|K]].
  - right; left. split; lra.
  - left. subst. change (inject_Z 0) with 0 in E. lra.
  - right; right. split; lra.
Qed.
Lemma distance_least a b e : same_meridian e (b - a) -> longitude_distance a b <= qabs e.
Proof.
  intros S. destruct (distance_arc a b) as (c & Sc & Dc). pose proof (distance_range a b) as R.
  assert (H : -180 <= c <= 180) by (destruct Dc as [D|D]; lra).
  destruct (shortest c e (same_trans _ _ _ Sc (same_sym _ _ S)) H) as [X|[[X1 X2]|[X1 X2]]].
  - destruct (Qlt_le_dec e 0); [rewrite qabs_neg by lra|rewrite qabs_nonneg by lra]; lra.
  - rewrite qabs_nonneg by lra. lra.
  - rewrite qabs_neg by lra. lra.
Qed.
Lemma distance_shorter_arc a b : shorter_arc a b (longitude_distance a b).
Proof.
  assert (Q : forall e, Qabs e == qabs e).
  { intros e. unfold qabs. destruct (qltb_spec e 0); [apply Qabs_neg; lra|apply Qabs_pos; lra]. }
  split.
  - destruct (distance_arc a b) as (c & S & D). exists c. split; [exact S|]. rewrite Q.
    pose proof (distance_range a b). unfold qabs. qsplit; destruct D as [D|D]; lra.
  - intros c S. rewrite Q. apply distance_least. exact S.
Qed.
Lemma distance_unique a b a' b' : same_meridian (b - a) (b' - a') ->
  longitude_distance a b == longitude_distance a' b'.
Proof.
  intros S. apply Qle_antisym.
  - destruct (distance_arc a' b') as (c & Sc & Dc). pose proof (distance_range a' b').
    assert (L := distance_least a b c (same_trans _ _ _ Sc (same_sym _ _ S))).
    destruct (Qlt_le_dec c 0); [rewrite qabs_neg in L by lra|rewrite qabs_nonneg in L by lra];
      destruct Dc as [D|D]; lra.
  - destruct (distance_arc a b) as (c & Sc & Dc). pose proof (distance_range a b).
    assert (L := distance_least a' b' c (same_trans _ _ _ Sc S)).
    destruct (Qlt_le_dec c 0); [rewrite qabs_neg in L by lra|rewrite qabs_nonneg in L by lra];
      destruct Dc as [D|D]; lra.
Qed.
Lemma distance_periodic a b a' b' : same_meridian a a' -> same_meridian b b' ->
  longitude_distance a b == longitude_distance a' b'.
Proof.
  intros (k & E) (l & F). apply distance_unique. exists (l - k)%Z. unfold Z.sub.
  rewrite inject_Z_plus, inject_Z_opp. lra.
Qed.
Lemma distance_sym a b : longitude_distance a b == longitude_distance b a.
Proof.
  pose proof (distance_range a b) as Rab. pose proof (distance_range b a) as Rba.
  assert (H : forall u v, longitude_distance u v <= longitude_distance v u).
  { intros u v. destruct (distance_arc v u) as (c & (k & E) & Dc). pose proof (distance_range v u).
    assert (L : longitude_distance u v <= qabs (- c)).
    { apply distance_least. exists (- k)%Z. rewrite inject_Z_opp. lra. }
    destruct (Qlt_le_dec c 0); [rewrite qabs_nonneg in L by lra|rewrite qabs_neg in L by lra];
      destruct Dc as [D|D]; lra. }
  apply Qle_antisym; apply H.
Qed.
Lemma distance_zero a b : longitude_distance a b == 0 <-> same_meridian a b.
Proof.
  split.
  - intros Z0. destruct (distance_arc a b) as (c & (k & E) & Dc). exists k.
    destruct Dc as [D|D]; lra.
  - intros (k & E). apply Qle_antisym; [|apply distance_range].
    assert (L : longitude_distance a b <= qabs 0).
    { apply distance_least. exists k. lra. }
    rewrite qabs_nonneg in L by lra. exact L.
Qed.
Lemma distance_triangle a b c : longitude_distance a c <= longitude_distance a b + longitude_distance b c.
Proof.
  destruct (distance_arc a b) as (u & (k & E) & Du). destruct (distance_arc b c) as (v & (l & F) & Dv).
  pose proof (distance_range a b). pose proof (distance_range b c).
  assert (L : longitude_distance a c <= qabs (u + v)).
  { apply distance_least. exists (k + l)%Z. rewrite inject_Z_plus. lra. }
  destruct (Qlt_le_dec (u + v) 0); [rewrite qabs_neg in L by lra|rewrite qabs_nonneg in L by lra];
    destruct Du as [Du|Du], Dv as [Dv|Dv]; lra.
Qed.

(** ** Boundaries *)
Lemma width_region b : get_width b == x1 (region b) - x0 (region b).
Proof. unfold get_width, region. cbn. qsplit; lra. Qed.
Lemma height_region b : get_height b == y1 (region b) - y0 (region b).
Proof. unfold get_height, region. cbn. lra. Qed.

Lemma width_bounds b : meaningful b -> 0 < get_width b <= 360.
Proof.
  unfold meaningful, in_domain, get_width. intros (_ & A & B & N). qsplit; [lra|].
  split; [|lra]. destruct (Qlt_le_dec 0 (180 - long_min b + (long_max b + 180))); [auto|].
  exfalso. apply N. split; lra.
Qed.
Lemma centre_inside b : meaningful b -> in_domain (getcx b) /\ within_globe (region b) (getcx b) (getcy b).
Proof.
  intros M. pose proof (width_bounds b M) as W. destruct M as (H & A & B & _).
  pose proof (half_lin (get_width b)) as H2. pose proof (half_lin (get_height b)) as H3.
  pose proof (width_region b) as WR. unfold getcx, getcy, in_domain, within_globe, within in *.
  assert (HH : 0 <= get_height b) by (unfold get_height; lra).
  generalize dependent (get_width b / 2). intros hw H2. generalize dependent (get_height b / 2). intros hh H3.
  assert (Y : y0 (region b) <= lat_min b + hh <= y1 (region b)).
  { unfold get_height in *. cbn. lra. }
  destruct (qltb_spec 180 (long_min b + hw)).
  - split; [lra|]. exists 1%Z. change (inject_Z 1) with 1. split; [|exact Y].
    change (x0 (region b)) with (long_min b) in *. lra.
  - split; [lra|]. exists 0%Z. change (inject_Z 0) with 0. split; [|exact Y].
    change (x0 (region b)) with (long_min b) in *. lra.
Qed.

Lemma Boundary_makes la lb oa ob t : la <= lb -> -180 <= oa -> ob <= 180 -> times_ok t ->
  Boundary [la; lb] [oa; ob] t = Ok (mkB la lb oa ob t).
Proof.
  intros H1 H2 H3 [->|(a & b & -> & L)]; unfold Boundary; qsplit; auto.
  destruct (b <? a)%Z eqn:E; auto. apply Z.ltb_lt in E. lia.
Qed.

(** Covering and separation of two adjacent closed intervals on the circle. *)
Lemma halves_disjoint lo mid hi x (k l : Z) : hi - lo <= 360 ->
  lo < x + inject_Z k * 360 < mid -> mid < x + inject_Z l * 360 < hi -> False.
Proof.
  intros W A B. assert (k = l).
  { apply Z.sub_move_0_r. apply int_zero. unfold Z.sub. rewrite inject_Z_plus, inject_Z_opp. lra. }
  subst. lra.
Qed.

Lemma split_quarters b : meaningful b -> times_ok (time_range b) -> long_min b + get_width b / 2 <= 180 ->
  exists l, boundary_split b = Ok l /\ quartered b l.
Proof.
  intros M T L. pose proof (width_bounds b M) as W. pose proof (width_region b) as WR.
  destruct M as (H & A & B & N). unfold in_domain in *. unfold boundary_split.
  pose proof (half_lin (get_width b)) as H2. pose proof (half_lin (get_height b)) as H3.
  assert (HH : get_height b == lat_max b - lat_min b) by reflexivity.
  generalize dependent (get_width b / 2). intros hw L H2. generalize dependent (get_height b / 2). intros hh H3.
  set (mx := long_min b + hw) in *. set (my := lat_min b + hh) in *.
  assert (MY : my - lat_min b == lat_max b - my /\ lat_min b <= my <= lat_max b) by (unfold my; lra).
  rewrite !Boundary_makes by (auto; unfold mx; lra). cbn [bind].
  eexists. split; [reflexivity|].
  (* The east end of the region, and of the parts. *)
  set (E := x1 (region b)) in *.
  assert (X0 : x0 (region b) = long_min b) by reflexivity.
  assert (E1 : E == long_min b + get_width b) by (rewrite X0 in WR; lra).
  assert (RW : forall u v t, region (mkB u v (long_min b) mx t) = Box (long_min b) mx u v).
  { intros. unfold region. cbn. qsplit. - reflexivity. - unfold mx in *. exfalso; lra. }
  assert (RE : forall u v t, region (mkB u v mx (long_max b) t) = Box mx E u v).
  { assert (GW : get_width b == if qltb (long_min b) (long_max b) then long_max b - long_min b
                               else (180 - long_min b) + (long_max b + 180)) by reflexivity.
    intros. unfold region, E. cbn. destruct (qltb_spec (long_min b) (long_max b)).
    - destruct (qltb_spec mx (long_max b)); [reflexivity|unfold mx in *; exfalso; lra].
    - destruct (qltb_spec mx (long_max b)); [unfold mx in *; exfalso; lra|reflexivity]. }
  assert (MX : mx - long_min b == E - mx) by (unfold mx; lra).
  assert (EW : E - long_min b <= 360) by lra.
  split; [reflexivity|]. split; [|split].
  - assert (R : region b = Box (long_min b) E (lat_min b) (lat_max b)) by reflexivity.
    rewrite R. clearbody E. 
    intros q Iq. destruct Iq as [<-|[<-|[<-|[<-|[]]]]]; rewrite ?RW, ?RE; cbn [x0 x1 y0 y1 time_range];
      (split; [|split; [|reflexivity]]); clearbody mx my; lra.
  - intros x y. split.
    + intros (k & [Hx Hy]). fold E in Hx. rewrite X0 in Hx. change (y0 (region b)) with (lat_min b) in Hy. change (y1 (region b)) with (lat_max b) in Hy.
      destruct (Qlt_le_dec (x + inject_Z k * 360) mx); destruct (Qlt_le_dec y my).
      * eexists. split; [left; reflexivity|]. exists k. rewrite RW. unfold within; cbn [x0 x1 y0 y1]. clearbody mx my E. lra.
      * eexists. split; [right; left; reflexivity|]. exists k. rewrite RW. unfold within; cbn [x0 x1 y0 y1]. clearbody mx my E. lra.
      * eexists. split; [right; right; left; reflexivity|]. exists k. rewrite RE. unfold within; cbn [x0 x1 y0 y1]. clearbody mx my E. lra.
      * eexists. split; [right; right; right; left; reflexivity|]. exists k. rewrite RE. unfold within; cbn [x0 x1 y0 y1]. clearbody mx my E. lra.
    + intros (q & Iq & k & Hq). exists k. unfold within. fold E. rewrite X0.
      change (y0 (region b)) with (lat_min b). change (y1 (region b)) with (lat_max b).
      destruct Iq as [<-|[<-|[<-|[<-|[]]]]]; rewrite ?RW, ?RE in Hq; unfold within in Hq; cbn [x0 x1 y0 y1] in Hq; clearbody mx my E; lra.
  - assert (HD : forall k l x, long_min b < x + inject_Z k * 360 < mx -> mx < x + inject_Z l * 360 < E -> False)
      by (intros k l x; apply halves_disjoint; exact EW).
    intros i j p q x y Hi Hj (k & Hp) (l & Hq). unfold strictly_within in *.
    destruct i as [|[|[|[|i]]]]; cbn in Hi; [injection Hi as <-..|destruct i; discriminate];
    destruct j as [|[|[|[|j]]]]; cbn in Hj; (injection Hj as <-|| (destruct j; discriminate)); auto; exfalso;
    rewrite ?RW, ?RE in Hp; rewrite ?RW, ?RE in Hq; cbn [x0 x1 y0 y1] in Hp, Hq; clearbody mx my E; destruct Hp as [Hp1 Hp2], Hq as [Hq1 Hq2];
    first [ lra | exact (HD _ _ _ Hp1 Hq1) | exact (HD _ _ _ Hq1 Hp1) ].
Qed.
Lemma split_fails b : meaningful b -> times_ok (time_range b) -> 180 < long_min b + get_width b / 2 -> boundary_split b = Err ValueError.
Proof.
  intros (H & A & B & N) T L. unfold boundary_split. unfold Boundary at 1.
  destruct (time_range b) as [|t0 [|t1 ts]]; [|exfalso; destruct T as [T|(? & ? & T & _)]; discriminate|];
    clear T.
  all: pose proof (half_lin (get_height b)) as H3; assert (get_height b == lat_max b - lat_min b) by reflexivity; unfold in_domain in *;
    (destruct (qltb_spec (lat_min b + get_height b / 2) (lat_min b)); [reflexivity|]);
    (destruct (qltb_spec 180 (long_min b + get_width b / 2)); [|exfalso; lra]); rewrite orb_true_r; reflexivity.
Qed.

(** ** Equality *)
Lemma eqb_iff a b : boundary_eqb a b = true <->
  (lat_min a == lat_min b /\ lat_max a == lat_max b /\ long_min a == long_min b /\ long_max a == long_max b).
Proof. unfold boundary_eqb. rewrite !andb_true_iff, !qeqb_true. tauto. Qed.
