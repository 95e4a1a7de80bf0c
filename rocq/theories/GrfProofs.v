(** Proofs about random fields (C71). *)
From Coq Require Import Permutation Sorted.
From Verif Require Import Base QLib Geo Cell Loaders AggProofs Shapes ShapeSpec ShapeProofs Grf GrfSpec.
Open Scope Q_scope.

Lemma Forall2_map2 {A B C} (R : A -> C -> Prop) (f : A -> B) (g : B -> C) l : (forall x, In x l -> R x (g (f x))) -> Forall2 R l (map g (map f l)).
Proof. induction l as [|x l IH]; intros H; constructor; [apply H; left; reflexivity|apply IH; intros y I; apply H; right; exact I]. Qed.
Lemma normalise_ok l : uneven l -> exists g, normalise l = Some g /\ rescaled 0 1 l g.
Proof.
  intros (x & y & X & Y & L). assert (N : l <> []) by (destruct l; [destruct X|discriminate]).
  destruct (qmin_list_spec l N) as (I0 & M0). destruct (qmax_list_spec l N) as (I1 & M1).
  unfold normalise. set (l' := map (fun x => x - qmin_list l) l). assert (N' : l' <> []) by (destruct l; [contradiction|discriminate]).
  destruct (qmin_list_spec l' N') as (J0 & K0). destruct (qmax_list_spec l' N') as (J1 & K1).
  assert (E0 : qmin_list l' == 0).
  { apply in_map_iff in J0 as (z & E & Iz). rewrite <- E in *. specialize (M0 z Iz). specialize (K0 _ (in_map (fun x => x - qmin_list l) l _ I0)). cbn in K0. lra. }
  assert (E1 : qmax_list l' == qmax_list l - qmin_list l).
  { apply in_map_iff in J1 as (z & E & Iz). rewrite <- E in *. specialize (M1 z Iz). specialize (K1 _ (in_map (fun x => x - qmin_list l) l _ I1)). cbn in K1. lra. }
  assert (P : 0 < qmax_list l' - qmin_list l') by (specialize (M0 x X); specialize (M1 y Y); lra).
  set (s := qmax_list l' - qmin_list l') in *. destruct (qeqb_spec s 0); [lra|]. eexists. split; [reflexivity|].
  assert (S : s == qmax_list l - qmin_list l) by (unfold s; lra).
  exists (/ s), (qmin_list l). assert (V : 0 < / s) by (apply Qinv_lt_0_compat; exact P). split; [exact V|].
  assert (W : / s * s == 1) by (rewrite Qmult_comm; apply Qmult_inv_r; lra).
  split; [|split; [|split]].
  - apply (Forall2_map2 _ (fun x => x - qmin_list l) (fun x => x / s)). intros z _. unfold Qdiv. lra.
  - intros z Z. specialize (M0 z Z). specialize (M1 z Z). assert (D : 0 <= z - qmin_list l <= s) by lra. clearbody s. split; nra.
  - exists (qmin_list l). split; [exact I0|]. ring.
  - exists (qmax_list l). split; [exact I1|]. rewrite <- S. exact W.
Qed.
Lemma normalise_even l : (forall x y, In x l -> In y l -> x == y) -> normalise l = None.
Proof.
  intros H. unfold normalise. destruct l as [|z l]; [reflexivity|]. set (l' := map _ (z :: l)). assert (N : l' <> []) by discriminate.
  destruct (qmin_list_spec l' N) as (J0 & _). destruct (qmax_list_spec l' N) as (J1 & _). apply in_map_iff in J0 as (a & E0 & A), J1 as (c & E1 & C).
  destruct (qeqb_spec (qmax_list l' - qmin_list l') 0) as [|F]; [reflexivity|]. exfalso. apply F. rewrite <- E0, <- E1. rewrite (H a c A C). ring.
Qed.
Lemma rescaled_bounds lo hi l g : lo <= hi -> rescaled lo hi l g -> (forall y, In y g -> lo <= y <= hi) /\ (exists y, In y g /\ y == lo) /\ (exists y, In y g /\ y == hi).
Proof.
  intros L (a & c & P & F & B & (x0 & I0 & E0) & (x1 & I1 & E1)).
  assert (G : forall x, In x l -> exists y, In y g /\ y == lo + (hi - lo) * (a * (x - c))).
  { clear B I0 E0 I1 E1. induction F as [|x y l g E F IH]; intros z Z; [destruct Z|]. destruct Z as [->|Z]; [exists y; split; [left; reflexivity|exact E]|]. destruct (IH z Z) as (w & W & X). exists w. split; [right; exact W|exact X]. }
  split; [|split].
  - intros y Y. assert (X : exists x, In x l /\ y == lo + (hi - lo) * (a * (x - c))).
    { clear B I0 E0 I1 E1 G. induction F as [|x y' l g E F IH]; [destruct Y|]. destruct Y as [->|Y]; [exists x; split; [left; reflexivity|exact E]|]. destruct (IH Y) as (w & W & X). exists w. split; [right; exact W|exact X]. }
    destruct X as (x & X & E). specialize (B x X). rewrite E. nra.
  - destruct (G x0 I0) as (y & Y & E). exists y. split; [exact Y|]. rewrite E, E0. ring.
  - destruct (G x1 I1) as (y & Y & E). exists y. split; [exact Y|]. rewrite E, E1. ring.
Qed.
Lemma clip_limited t0 t1 l : t0 <= t1 -> Forall2 (limited t0 t1) l (clip t0 t1 l).
Proof.
  intros T. apply (Forall2_map2 _ (fun x => if qltb x t0 then t0 else x) (fun x => if qleb t1 x then t1 else x)). intros x _. unfold limited. qsplit; split; [|split| |split| |split| |split]; intros; lra.
Qed.
Lemma clip_in t0 t1 l x : t0 <= t1 -> In x l -> exists y, In y (clip t0 t1 l) /\ limited t0 t1 x y.
Proof.
  intros T I. assert (F := clip_limited t0 t1 l T). induction F as [|a c l' g E F IH]; [destruct I|]. destruct I as [->|I]; [exists c; split; [left; reflexivity|exact E]|].
  destruct (IH I) as (w & W & X). exists w. split; [right; exact W|exact X].
Qed.
Lemma Forall2_len {A B} (R : A -> B -> Prop) l g : Forall2 R l g -> List.length g = List.length l.
Proof. induction 1; cbn; congruence. Qed.
Lemma rescaled_length lo hi l g : rescaled lo hi l g -> List.length g = List.length l.
Proof. intros (a & c & _ & F & _). exact (Forall2_len _ _ _ F). Qed.
Lemma rescaled_map lo hi l g : rescaled 0 1 l g -> rescaled lo hi l (map (fun x => x * (hi - lo) + lo) g).
Proof.
  intros (a & c & P & F & R). exists a, c. split; [exact P|]. split; [|exact R]. clear R. induction F as [|x y l g E F IH]; constructor; [|exact IH]. rewrite E. ring.
Qed.
Lemma rescaled_uneven lo hi l g : lo < hi -> rescaled lo hi l g -> uneven g.
Proof. intros L R. destruct (rescaled_bounds lo hi l g (Qlt_le_weak _ _ L) R) as (_ & (x & X & E) & (y & Y & F)). exists x, y. split; [exact X|]. split; [exact Y|]. lra. Qed.
Lemma clip_uneven t0 t1 l g : t0 < t1 -> t0 < 1 -> 0 < t1 -> rescaled 0 1 l g -> uneven (clip t0 t1 g).
Proof.
  intros T A B R. assert (T' : t0 <= t1) by lra. destruct (rescaled_bounds 0 1 l g ltac:(lra) R) as (_ & (x & X & E) & (y & Y & F)).
  destruct (clip_in t0 t1 g x T' X) as (x' & X' & (P0 & P1 & P2)). destruct (clip_in t0 t1 g y T' Y) as (y' & Y' & (Q0 & Q1 & Q2)).
  exists x', y'. split; [exact X'|]. split; [exact Y'|].
  destruct (Qlt_le_dec x t0) as [C|C]; [rewrite P0 by lra|rewrite P2 by lra]; (destruct (Qlt_le_dec t1 y) as [D|D]; [rewrite Q1 by lra|rewrite Q2 by lra]); lra.
Qed.
Lemma clip_even t0 t1 g : t1 <= t0 -> forall x y, In x (clip t0 t1 g) -> In y (clip t0 t1 g) -> x == y.
Proof.
  intros T. assert (C : forall x, In x (clip t0 t1 g) -> x = t1).
  { intros x I. unfold clip in I. apply in_map_iff in I as (z & <- & I). apply in_map_iff in I as (w & <- & _). qsplit; try reflexivity; lra. }
  intros x y X Y. rewrite (C x X), (C y Y). reflexivity.
Qed.
Lemma clip_above t0 t1 g : t0 < t1 -> (forall x, In x g -> x <= t0) -> forall x y, In x (clip t0 t1 g) -> In y (clip t0 t1 g) -> x == y.
Proof.
  intros T H. assert (C : forall x, In x (clip t0 t1 g) -> x == t0).
  { intros x I. unfold clip in I. apply in_map_iff in I as (z & <- & I). apply in_map_iff in I as (w & <- & W). specialize (H w W). qsplit; lra. }
  intros x y X Y. rewrite (C x X), (C y Y). reflexivity.
Qed.
Lemma clip_below t0 t1 g : t0 < t1 -> (forall x, In x g -> t1 <= x) -> forall x y, In x (clip t0 t1 g) -> In y (clip t0 t1 g) -> x == y.
Proof.
  intros T H. assert (C : forall x, In x (clip t0 t1 g) -> x == t1).
  { intros x I. unfold clip in I. apply in_map_iff in I as (z & <- & I). apply in_map_iff in I as (w & <- & W). specialize (H w W). qsplit; lra. }
  intros x y X Y. rewrite (C x X), (C y Y). reflexivity.
Qed.
Lemma uneven_or l : uneven l \/ forall x y, In x l -> In y l -> x == y.
Proof.
  destruct l as [|z l]; [right; intros x y []|]. assert (N : z :: l <> []) by discriminate.
  destruct (qmin_list_spec _ N) as (I0 & M0). destruct (qmax_list_spec _ N) as (I1 & M1).
  destruct (Qlt_le_dec (qmin_list (z :: l)) (qmax_list (z :: l))); [left; eexists; eexists; eauto|].
  right. intros x y X Y. pose proof (M0 x X). pose proof (M1 x X). pose proof (M0 y Y). pose proof (M1 y Y). lra.
Qed.

(** ** The grid *)
Lemma grid_vals n (vals : list (list (option Q))) lat long : List.length lat = n -> List.length long = n -> List.length vals = (n * n)%nat ->
  map p_vals (grid_rows (mkGrid lat long (fun i j => nth (i * n + j) vals []))) = vals.
Proof.
  intros A B L. unfold grid_rows. cbn [g_lat g_long g_val]. rewrite A, B.
  set (f := fun i j => mkP (nth i lat 0) (nth j long 0) None (nth (i * n + j) vals [])).
  change (map p_vals (flat_map (fun i => map (f i) (seq 0 n)) (seq 0 n)) = vals).
  assert (LR : List.length (flat_map (fun i => map (f i) (seq 0 n)) (seq 0 n)) = (n * n)%nat) by apply flat_rows_length.
  apply (nth_ext _ _ (p_vals (mkP 0 0 None [])) []); [rewrite map_length, LR; symmetry; exact L|].
  rewrite map_length, LR. intros k K. rewrite map_nth. assert (Nz : n <> 0%nat) by (intros ->; cbn in K; lia).
  assert (Dk : (k / n < n)%nat) by (apply Nat.div_lt_upper_bound; lia). assert (Mk : (k mod n < n)%nat) by (apply Nat.mod_upper_bound; exact Nz).
  assert (E := flat_rows f lat n n 0 (k / n) (k mod n) Dk Mk).
  replace (k / n * n + k mod n)%nat with k in E by (rewrite (Nat.div_mod k n Nz) at 1; lia).
  rewrite (nth_error_nth _ _ (mkP 0 0 None []) E). unfold f. cbn [p_vals Nat.add].
  f_equal. rewrite (Nat.div_mod k n Nz) at 3. lia.
Qed.
Lemma grf_on_grid size vals b : (2 <= size)%Z -> ~ lat_min b == lat_max b -> ~ long_min b == long_max b -> List.length vals = (Z.to_nat size * Z.to_nat size)%nat ->
  on_grid size b vals (g <- grf_grid size vals b ;; to_xarray g).
Proof.
  intros S0 D1 D2 L. unfold grf_grid. destruct (Z.leb_spec size 0); [lia|].
  destruct (linspace_ok true (lat_min b) (lat_max b) size ltac:(lia)) as (lat & E1 & L1 & _). destruct (linspace_ok true (long_min b) (long_max b) size ltac:(lia)) as (long & E2 & L2 & _).
  rewrite E1, E2. cbn [bind]. set (g := mkGrid _ _ _).
  destruct (to_xarray_ok g (linspace_no_dup _ _ _ _ _ D1 E1) (linspace_no_dup _ _ _ _ _ D2 E2)) as (ds & X & P & _).
  exists ds, lat, long, (grid_rows g). split; [exact X|]. split; [apply linspace_axis; assumption|]. split; [apply linspace_axis; assumption|].
  split; [apply (grid_rows_spec g)|]. split; [apply grid_vals; auto|exact P].
Qed.
Lemma binary_length t n g : (forall l, g = Some l -> List.length l = n) -> List.length (grf_to_binary t n g) = n.
Proof. intros H. destruct g as [l|]; cbn; [rewrite !map_length; auto|apply repeat_length]. Qed.
Lemma normalise_length l g : normalise l = Some g -> List.length g = List.length l.
Proof. unfold normalise. destruct (qeqb _ 0); [discriminate|]. intros E; injection E as <-. rewrite !map_length. reflexivity. Qed.
Lemma values_length p noise : List.length (grf_values p noise) = List.length noise.
Proof.
  unfold grf_values, random_field. destruct (r_binary p).
  - apply binary_length. intros l E. exact (normalise_length _ _ E).
  - unfold grf_to_scalar. destruct (normalise noise) as [l|] eqn:E; [|apply repeat_length]. destruct (normalise (clip _ _ l)) as [l'|] eqn:E'; [|apply repeat_length].
    cbn [option_map]. rewrite !map_length, (normalise_length _ _ E'). unfold clip. rewrite !map_length. exact (normalise_length _ _ E).
Qed.
Lemma vector_length cos sin p noise turns : List.length turns = List.length noise -> List.length (grf_vector cos sin p noise turns) = List.length noise.
Proof.
  intros L. unfold grf_vector, random_field. destruct (normalise noise) as [l|] eqn:E; [|apply repeat_length]. destruct (normalise turns) as [l'|] eqn:E'; [|apply repeat_length].
  rewrite map_length, combine_length, (normalise_length _ _ E), (normalise_length _ _ E'), L. apply Nat.min_id.
Qed.
