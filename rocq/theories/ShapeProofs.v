(** Proofs about the synthetic sources (C60). *)
From Coq Require Import Permutation Sorted.
From Verif Require Import Base QLib Geo Cell Loaders Shapes ShapeSpec.
Open Scope Q_scope.

Definition lin (a d : Q) (i : nat) : Q := a + inject_Z (Z.of_nat i) * d.

Lemma linspace_ok e a b n : (0 <= n)%Z -> exists l, linspace e a b n = Ok l /\ List.length l = Z.to_nat n /\
  forall i, (i < Z.to_nat n)%nat -> nth i l 0 = lin a ((b - a) / inject_Z (if e then n - 1 else n)) i.
Proof.
  intros N. unfold linspace. destruct (Z.ltb_spec n 0); [lia|]. eexists. split; [reflexivity|].
  split; [rewrite map_length, seq_length; reflexivity|]. intros i I.
  rewrite nth_indep with (d' := lin a ((b - a) / inject_Z (if e then n - 1 else n)) 0).
  - change (lin a ((b - a) / inject_Z (if e then (n - 1)%Z else n)) 0) with ((fun i : nat => a + inject_Z (Z.of_nat i) * ((b - a) / inject_Z (if e then (n - 1)%Z else n))) 0%nat).
    rewrite map_nth, seq_nth; auto.
  - rewrite map_length, seq_length. exact I.
Qed.

Lemma linspace_inv e a b n l : linspace e a b n = Ok l -> (0 <= n)%Z /\ List.length l = Z.to_nat n /\
  forall i, (i < Z.to_nat n)%nat -> nth i l 0 = lin a ((b - a) / inject_Z (if e then n - 1 else n)) i.
Proof.
  intros H. assert (N : (0 <= n)%Z) by (unfold linspace in H; destruct (Z.ltb_spec n 0); [discriminate|lia]).
  destruct (linspace_ok e a b n N) as (l' & E & L & V). rewrite H in E. injection E as ->. auto.
Qed.

Lemma lin_step a d i : lin a d (S i) - lin a d i == d.
Proof. unfold lin. rewrite Nat2Z.inj_succ, <- Z.add_1_r, inject_Z_plus. ring. Qed.

Lemma inj_pos n : (0 < n)%Z -> 0 < inject_Z n.
Proof. intros H. change 0 with (inject_Z 0). rewrite <- Zlt_Qlt. exact H. Qed.

Lemma linspace_axis a b n l : (2 <= n)%Z -> linspace true a b n = Ok l -> axis_over a b n l.
Proof.
  intros N H. destruct (linspace_inv _ _ _ _ _ H) as (_ & L & V). assert (P := inj_pos (n - 1) ltac:(lia)).
  split; [rewrite L; lia|]. split; [|split].
  - rewrite V by lia. unfold lin. change (inject_Z (Z.of_nat 0)) with 0. lra.
  - rewrite L, V by lia. unfold lin. replace (Z.of_nat (pred (Z.to_nat n))) with (n - 1)%Z by lia. field. lra.
  - exists ((b - a) / inject_Z (n - 1)). intros i I. rewrite L in I. rewrite !V by lia. apply lin_step.
Qed.

Lemma linspace_below a b n l : (1 <= n)%Z -> linspace false a b n = Ok l -> axis_below a b n l.
Proof.
  intros N H. destruct (linspace_inv _ _ _ _ _ H) as (_ & L & V). assert (P := inj_pos n ltac:(lia)).
  split; [rewrite L; lia|]. split.
  - rewrite V by lia. unfold lin. change (inject_Z (Z.of_nat 0)) with 0. lra.
  - exists ((b - a) / inject_Z n). split.
    + intros i I. rewrite L in I. rewrite !V by lia. apply lin_step.
    + rewrite L, V by lia. unfold lin. replace (Z.of_nat (pred (Z.to_nat n))) with (n + -1)%Z by lia.
      rewrite inject_Z_plus. field. lra.
Qed.

(** The middle point of an axis with an odd number of points. *)
Lemma middle_point a b n l : (1 <= n)%Z -> Z.odd n = true -> linspace true a b n = Ok l ->
  exists c, py_nth l (n / 2) = Ok c /\ ((2 <= n)%Z -> c == (a + b) / 2).
Proof.
  intros N O H. destruct (linspace_inv _ _ _ _ _ H) as (_ & L & V).
  assert (B : (0 <= n / 2 < n)%Z) by (split; [apply Z.div_pos; lia|apply Z.div_lt; lia]).
  unfold py_nth. destruct (Z.ltb_spec (n / 2) 0); [lia|]. destruct (Z.ltb_spec (n / 2) 0); [lia|].
  rewrite (nth_error_nth' l 0) by (rewrite L; lia). eexists. split; [reflexivity|]. intros N2.
  rewrite V by lia. unfold lin. rewrite Z2Nat.id by lia. assert (P := inj_pos (n - 1) ltac:(lia)).
  apply Z.odd_spec in O. destruct O as (k & ->). replace ((2 * k + 1) / 2)%Z with k by (Z.div_mod_to_equations; lia).
  replace (2 * k + 1 - 1)%Z with (2 * k)%Z in * by lia. rewrite inject_Z_mult in *. change (inject_Z 2) with 2 in *.
  field. intros K. rewrite K in P. lra.
Qed.

(** ** Rows of a grid *)
Lemma flat_rows {A B} (f : nat -> nat -> B) (xs : list A) (m : nat) :
  forall n s i j, (i < n)%nat -> (j < m)%nat ->
  nth_error (flat_map (fun i => map (f i) (seq 0 m)) (seq s n)) (i * m + j) = Some (f (s + i)%nat j).
Proof.
  induction n as [|n IH]; intros s i j I J; [lia|]. cbn [seq flat_map]. destruct i as [|i].
  - cbn [Nat.mul Nat.add]. rewrite nth_error_app1 by (rewrite map_length, seq_length; exact J).
    erewrite map_nth_error; [rewrite Nat.add_0_r; reflexivity|].
    rewrite (nth_error_nth' _ 0%nat) by (rewrite seq_length; exact J). rewrite seq_nth by exact J. reflexivity.
  - rewrite nth_error_app2 by (rewrite map_length, seq_length; cbn; lia).
    rewrite map_length, seq_length. replace (S i * m + j - m)%nat with (i * m + j)%nat by (cbn; lia).
    rewrite IH by lia. f_equal. f_equal. lia.
Qed.
Lemma flat_rows_length {B} (f : nat -> nat -> B) (m n s : nat) :
  List.length (flat_map (fun i => map (f i) (seq 0 m)) (seq s n)) = (n * m)%nat.
Proof.
  revert s. induction n as [|n IH]; intros s; [reflexivity|]. cbn [seq flat_map]. rewrite app_length, IH, map_length, seq_length. reflexivity.
Qed.

Lemma grid_rows_spec g : rows_of_grid (g_lat g) (g_long g) (grid_rows g).
Proof.
  split; [apply flat_rows_length|]. intros i j I J. eexists. split.
  - unfold grid_rows. rewrite (flat_rows (fun i j => mkP (nth i (g_lat g) 0) (nth j (g_long g) 0) None (g_val g i j)) (g_lat g)) by assumption. reflexivity.
  - cbn. auto.
Qed.

Lemma grid_rows_in g p : In p (grid_rows g) <-> exists i j, (i < List.length (g_lat g))%nat /\ (j < List.length (g_long g))%nat /\
  p = mkP (nth i (g_lat g) 0) (nth j (g_long g) 0) None (g_val g i j).
Proof.
  unfold grid_rows. rewrite in_flat_map. split.
  - intros (i & I & H). apply in_map_iff in H as (j & E & J). apply in_seq in I, J. exists i, j. split; [lia|]. split; [lia|]. auto.
  - intros (i & j & I & J & ->). exists i. split; [apply in_seq; lia|]. apply in_map_iff. exists j. split; [reflexivity|]. apply in_seq. lia.
Qed.

(** ** Centres *)
Lemma centre_ok a b n l c : (1 <= n)%Z -> linspace true a b n = Ok l -> centre_given c n ->
  exists q, centre_of l n c = Ok q /\ q == centre_wanted c a b.
Proof.
  intros N H G. unfold centre_of, centre_wanted, centre_given in *. destruct c as [q|].
  - destruct (qeqb_spec q 0); [contradiction|]. exists q. split; [reflexivity|]. lra.
  - destruct G as [N2 O]. destruct (middle_point _ _ _ _ N O H) as (q & E & V). exists q. split; [exact E|]. apply V. exact N2.
Qed.

Lemma within_spec d r : within d r = true <-> 0 <= r /\ d <= r * r.
Proof. unfold within. rewrite andb_true_iff, !qleb_true. tauto. Qed.

Lemma map_mask_true mult : map (mask_value true) mult = map Some mult.
Proof. reflexivity. Qed.
Lemma filled_by (f : Q -> Q -> bool) (inside : Q -> Q -> Prop) lat long mult :
  (forall y x, f y x = true <-> inside y x) ->
  filled inside mult (grid_rows (mkGrid lat long (fun i j => map (mask_value (f (nth i lat 0) (nth j long 0))) mult))).
Proof.
  intros H p P. apply grid_rows_in in P as (i & j & _ & _ & ->). cbn [p_lat p_long p_vals g_lat g_long g_val].
  split; intros Hin.
  - apply H in Hin. rewrite Hin. reflexivity.
  - destruct (f _ _) eqn:E; [|reflexivity]. exfalso. apply Hin, H, E.
Qed.

Theorem circle p b : (1 <= s_nx p)%Z -> (1 <= s_ny p)%Z ->
  centre_given (fst (s_centre p)) (s_ny p) -> centre_given (snd (s_centre p)) (s_nx p) ->
  exists g, gen_circle p b = Ok g /\
    filled (in_disc (centre_wanted (fst (s_centre p)) (lat_min b) (lat_max b))
                    (centre_wanted (snd (s_centre p)) (long_min b) (long_max b)) (s_radius p))
           (s_mult p) (grid_rows g) /\
    linspace true (lat_min b) (lat_max b) (s_ny p) = Ok (g_lat g) /\
    linspace true (long_min b) (long_max b) (s_nx p) = Ok (g_long g).
Proof.
  intros Nx Ny Cy Cx. unfold gen_circle.
  destruct (linspace_ok true (lat_min b) (lat_max b) (s_ny p) ltac:(lia)) as (lat & Elat & _).
  destruct (linspace_ok true (long_min b) (long_max b) (s_nx p) ltac:(lia)) as (long & Elong & _).
  destruct (centre_ok _ _ _ _ _ Ny Elat Cy) as (cy & Ey & Vy). destruct (centre_ok _ _ _ _ _ Nx Elong Cx) as (cx & Ex & Vx).
  rewrite Elat, Elong. cbn [bind]. rewrite Ey. cbn [bind]. rewrite Ex. cbn [bind].
  destruct (Z.eqb_spec (s_ny p) 0); [lia|]. eexists. split; [reflexivity|]. split; [|split; reflexivity].
  apply (filled_by (fun y x => within ((x - cx) * (x - cx) + (y - cy) * (y - cy)) (s_radius p))).
  intros y x. rewrite within_spec. unfold in_disc. rewrite Vy, Vx. reflexivity.
Qed.

(** The code's rectangle reaches the width to both sides. *)
Theorem rectangle p b : (1 <= s_nx p)%Z -> (1 <= s_ny p)%Z ->
  centre_given (fst (s_centre p)) (s_ny p) -> centre_given (snd (s_centre p)) (s_nx p) ->
  exists g, gen_rectangle p b = Ok g /\
    filled (in_rectangle (centre_wanted (fst (s_centre p)) (lat_min b) (lat_max b))
                    (centre_wanted (snd (s_centre p)) (long_min b) (long_max b)) (2 * s_width p) (2 * s_height p))
           (s_mult p) (grid_rows g) /\
    linspace true (lat_min b) (lat_max b) (s_ny p) = Ok (g_lat g) /\
    linspace true (long_min b) (long_max b) (s_nx p) = Ok (g_long g).
Proof.
  intros Nx Ny Cy Cx. unfold gen_rectangle.
  destruct (linspace_ok true (lat_min b) (lat_max b) (s_ny p) ltac:(lia)) as (lat & Elat & _).
  destruct (linspace_ok true (long_min b) (long_max b) (s_nx p) ltac:(lia)) as (long & Elong & _).
  destruct (centre_ok _ _ _ _ _ Ny Elat Cy) as (cy & Ey & Vy). destruct (centre_ok _ _ _ _ _ Nx Elong Cx) as (cx & Ex & Vx).
  rewrite Elat, Elong. cbn [bind]. rewrite Ey. cbn [bind]. rewrite Ex. cbn [bind].
  destruct (Z.eqb_spec (s_ny p) 0); [lia|]. eexists. split; [reflexivity|]. split; [|split; reflexivity].
  apply (filled_by (fun y x => qleb (qabs (x - cx)) (s_width p) && qleb (qabs (y - cy)) (s_height p))).
  intros y x. unfold in_rectangle. rewrite <- Vy, <- Vx. rewrite andb_true_iff, !qleb_true. unfold qabs.
  destruct (qltb_spec (x - cx) 0), (qltb_spec (y - cy) 0); split; intros H1; repeat split; assert (E1 : 2 * s_width p / 2 == s_width p) by field; assert (E2 : 2 * s_height p / 2 == s_height p) by field; rewrite ?E1, ?E2 in *; destruct H1; lra.
Qed.

(** ** Gradients *)
Lemma ramp_lin a b n i : (2 <= n)%Z -> ~ a == b ->
  lin 0 ((1 - 0) / inject_Z (n - 1)) i == ramp a b (lin a ((b - a) / inject_Z (n - 1)) i).
Proof.
  intros N D. unfold lin, ramp. assert (P := inj_pos (n - 1) ltac:(lia)). field. split; lra.
Qed.

Lemma linspace_ramp a b n l u : (2 <= n)%Z -> ~ a == b -> linspace true a b n = Ok l -> linspace true 0 1 n = Ok u ->
  forall i, (i < List.length l)%nat -> nth i u 0 == ramp a b (nth i l 0).
Proof.
  intros N D Hl Hu i I. destruct (linspace_inv _ _ _ _ _ Hl) as (_ & L & V). destruct (linspace_inv _ _ _ _ _ Hu) as (_ & L' & V').
  rewrite L in I. rewrite V, V' by assumption. apply ramp_lin; assumption.
Qed.

Lemma Forall2_maps {A B C} (R : B -> C -> Prop) (f : A -> B) (g : A -> C) l : (forall a, R (f a) (g a)) -> Forall2 R (map f l) (map g l).
Proof. intros H. induction l; cbn; constructor; auto. Qed.

Theorem gradient p b : (2 <= s_nx p)%Z -> (2 <= s_ny p)%Z ->
  (if s_vertical p then ~ lat_min b == lat_max b else ~ long_min b == long_max b) ->
  exists g, gen_gradient p b = Ok g /\
    valued (fun lat long => map (fun m => (if s_vertical p then ramp (lat_min b) (lat_max b) lat
                                           else ramp (long_min b) (long_max b) long) * m) (s_mult p)) (grid_rows g) /\
    linspace true (lat_min b) (lat_max b) (s_ny p) = Ok (g_lat g) /\
    linspace true (long_min b) (long_max b) (s_nx p) = Ok (g_long g).
Proof.
  intros Nx Ny D. unfold gen_gradient.
  destruct (linspace_ok true (lat_min b) (lat_max b) (s_ny p) ltac:(lia)) as (lat & Elat & _).
  destruct (linspace_ok true (long_min b) (long_max b) (s_nx p) ltac:(lia)) as (long & Elong & _).
  rewrite Elat, Elong. cbn [bind].
  destruct (linspace_ok true 0 1 (if s_vertical p then s_ny p else s_nx p)) as (u & Eu & _); [destruct (s_vertical p); lia|].
  rewrite Eu. cbn [bind]. eexists. split; [reflexivity|]. split; [|split; reflexivity].
  intros q Q0. apply grid_rows_in in Q0 as (i & j & I & J & ->). cbn [p_lat p_long p_vals g_lat g_long g_val] in *.
  apply Forall2_maps. intros m. eexists. split; [reflexivity|]. destruct (s_vertical p).
  - rewrite (linspace_ramp _ _ _ _ _ Ny D Elat Eu i I). reflexivity.
  - rewrite (linspace_ramp _ _ _ _ _ Nx D Elong Eu j J). reflexivity.
Qed.

Theorem vector_gradient p b mu mv : (2 <= s_nx p)%Z -> (2 <= s_ny p)%Z -> s_mult p = [mu; mv] ->
  (if s_vertical p then ~ lat_min b == lat_max b else ~ long_min b == long_max b) ->
  exists g, gen_vector_gradient p b = Ok g /\
    valued (fun lat long => if s_vertical p then [0; ramp (lat_min b) (lat_max b) lat * mv]
                            else [ramp (long_min b) (long_max b) long * mu; 0]) (grid_rows g) /\
    linspace true (lat_min b) (lat_max b) (s_ny p) = Ok (g_lat g) /\
    linspace true (long_min b) (long_max b) (s_nx p) = Ok (g_long g).
Proof.
  intros Nx Ny M D. unfold gen_vector_gradient. rewrite M.
  destruct (linspace_ok true (lat_min b) (lat_max b) (s_ny p) ltac:(lia)) as (lat & Elat & _).
  destruct (linspace_ok true (long_min b) (long_max b) (s_nx p) ltac:(lia)) as (long & Elong & _).
  rewrite Elat, Elong. cbn [bind].
  destruct (linspace_ok true 0 1 (if s_vertical p then s_ny p else s_nx p)) as (u & Eu & _); [destruct (s_vertical p); lia|].
  rewrite Eu. cbn [bind]. eexists. split; [reflexivity|]. split; [|split; reflexivity].
  intros q Q0. apply grid_rows_in in Q0 as (i & j & I & J & ->). cbn [p_lat p_long p_vals g_lat g_long g_val] in *.
  destruct (s_vertical p); cbn [combine map fst snd]; repeat constructor; eexists; (split; [reflexivity|]); try lra.
  - rewrite (linspace_ramp _ _ _ _ _ Ny D Elat Eu i I). reflexivity.
  - rewrite (linspace_ramp _ _ _ _ _ Nx D Elong Eu j J). reflexivity.
Qed.

(** ** Checkerboards *)
Lemma stripe_spec v0 size k v : 0 < size -> in_stripe v0 size k v -> stripe v v0 size = Some (k mod 2)%Z.
Proof.
  intros S [H1 H2]. unfold stripe. destruct (qeqb_spec size 0); [lra|]. f_equal. f_equal.
  rewrite inject_Z_plus in H2. change (inject_Z 1) with 1 in H2.
  assert (A : inject_Z k <= (v - v0) / size) by (apply Qle_shift_div_l; lra).
  assert (B : (v - v0) / size < inject_Z k + 1) by (apply Qlt_shift_div_r; lra).
  assert (C := Qfloor_le ((v - v0) / size)). assert (D := Qlt_floor ((v - v0) / size)).
  rewrite inject_Z_plus in D. change (inject_Z 1) with 1 in D.
  apply Z.le_antisymm.
  - apply Zlt_succ_le. unfold Z.succ. rewrite Zlt_Qlt, inject_Z_plus. change (inject_Z 1) with 1. lra.
  - apply Zlt_succ_le. unfold Z.succ. rewrite Zlt_Qlt, inject_Z_plus. change (inject_Z 1) with 1. lra.
Qed.

Lemma parity_sum k l : ((k mod 2 + l mod 2) mod 2)%Z = if Z.even (k + l) then 0%Z else 1%Z.
Proof.
  rewrite <- Z.add_mod by lia. rewrite Zmod_even. reflexivity.
Qed.

Theorem checkerboard p b : (1 <= s_nx p)%Z -> (1 <= s_ny p)%Z -> 0 < fst (s_grid p) -> 0 < snd (s_grid p) ->
  exists g, gen_checkerboard p b = Ok g /\
    chequered (lat_min b) (long_min b) (snd (s_grid p)) (fst (s_grid p)) 1 (grid_rows g) /\
    linspace false (lat_min b) (lat_max b) (s_ny p) = Ok (g_lat g) /\
    linspace false (long_min b) (long_max b) (s_nx p) = Ok (g_long g).
Proof.
  intros Nx Ny Gx Gy. unfold gen_checkerboard.
  destruct (linspace_ok false (lat_min b) (lat_max b) (s_ny p) ltac:(lia)) as (lat & Elat & _).
  destruct (linspace_ok false (long_min b) (long_max b) (s_nx p) ltac:(lia)) as (long & Elong & _).
  rewrite Elat, Elong. cbn [bind]. eexists. split; [reflexivity|]. split; [|split; reflexivity].
  intros q k l Q0 Hk Hl. apply grid_rows_in in Q0 as (i & j & I & J & ->). cbn [p_lat p_long p_vals g_lat g_long g_val] in *.
  rewrite (stripe_spec _ _ _ _ Gy Hk), (stripe_spec _ _ _ _ Gx Hl). eexists. split; [reflexivity|]. rewrite parity_sum.
  destruct (Z.even (k + l)); reflexivity.
Qed.

(** Every position lies in exactly one square. *)
Lemma stripe_exists v0 size v : 0 < size -> exists k, in_stripe v0 size k v.
Proof.
  intros S. exists (Qfloor ((v - v0) / size)). unfold in_stripe. rewrite inject_Z_plus. change (inject_Z 1) with 1.
  assert (C := Qfloor_le ((v - v0) / size)). assert (D := Qlt_floor ((v - v0) / size)).
  rewrite inject_Z_plus in D. change (inject_Z 1) with 1 in D.
  assert (E : (v - v0) == ((v - v0) / size) * size) by (field; lra). split; nra.
Qed.

(** ** Conversion to a dataset *)
Lemma insert_axis_perm x l : Permutation (insert_axis x l) (x :: l).
Proof.
  induction l as [|y l IH]; [reflexivity|]. cbn. destruct (qleb _ _); [reflexivity|]. rewrite IH. apply perm_swap.
Qed.
Lemma sort_axis_perm l : Permutation (sort_axis l) l.
Proof. induction l as [|x l IH]; [reflexivity|]. cbn. rewrite insert_axis_perm. constructor. exact IH. Qed.

Definition ascending (l : list (Q * nat)) : Prop := StronglySorted (fun x y => fst x <= fst y) l.
Lemma insert_axis_sorted x l : ascending l -> ascending (insert_axis x l).
Proof.
  intros H. induction H as [|y l H IH F]; cbn; [repeat constructor|]. destruct (qleb_spec (fst x) (fst y)) as [L|L].
  - constructor; [constructor; assumption|]. constructor; [exact L|]. eapply Forall_impl; [|exact F]. cbn. intros a A. lra.
  - constructor; [exact IH|]. apply (Permutation_Forall (Permutation_sym (insert_axis_perm x l))). constructor; [lra|exact F].
Qed.
Lemma sort_axis_sorted l : ascending (sort_axis l).
Proof. induction l as [|x l IH]; cbn; [constructor|]. apply insert_axis_sorted, IH. Qed.

Lemma has_dup_false l : has_dup l = false -> forall i j, (i < j < List.length l)%nat -> ~ nth i l 0 == nth j l 0.
Proof.
  induction l as [|x l IH]; cbn; intros H i j I; [lia|]. apply orb_false_iff in H as [H1 H2].
  destruct j as [|j]; [lia|]. destruct i as [|i].
  - intros E. assert (X : existsb (qeqb x) l = true); [|congruence].
    apply existsb_exists. exists (nth j l 0). split; [apply nth_In; lia|]. apply qeqb_true. exact E.
  - apply IH; [exact H2|lia].
Qed.
Lemma has_dup_lin l a d : ~ d == 0 -> (forall i, (i < List.length l)%nat -> nth i l 0 = lin a d i) -> has_dup l = false.
Proof.
  intros D H. destruct (has_dup l) eqn:E; [|reflexivity]. exfalso.
  assert (X : exists i j, (i < j < List.length l)%nat /\ nth i l 0 == nth j l 0).
  { clear H D. induction l as [|x l IH]; [discriminate|]. cbn in E. apply orb_true_iff in E as [E|E].
    - apply existsb_exists in E as (y & Y & E). apply (In_nth _ _ 0) in Y as (j & J & <-). exists 0%nat, (S j). cbn. split; [lia|]. apply qeqb_true. exact E.
    - destruct (IH E) as (i & j & I & V). exists (S i), (S j). cbn. split; [lia|exact V]. }
  destruct X as (i & j & I & V). rewrite !H in V by lia. unfold lin in V.
  assert (L : inject_Z (Z.of_nat i) < inject_Z (Z.of_nat j)) by (rewrite <- Zlt_Qlt; lia).
  destruct (Q_dec d 0) as [[K|K]|K]; [nra|nra|contradiction].
Qed.

Lemma linspace_no_dup e a b n l : ~ a == b -> linspace e a b n = Ok l -> has_dup l = false.
Proof.
  intros D H. destruct (linspace_inv _ _ _ _ _ H) as (N & L & V).
  destruct (Z.leb_spec n 1) as [S|S].
  - destruct l as [|x [|y l]]; try reflexivity. cbn in L. lia.
  - apply (has_dup_lin l a ((b - a) / inject_Z (if e then n - 1 else n))); [|rewrite L; exact V].
    assert (P : 0 < inject_Z (if e then n - 1 else n)) by (apply inj_pos; destruct e; lia).
    intros X. apply D. assert (Y : b - a == (b - a) / inject_Z (if e then (n - 1)%Z else n) * inject_Z (if e then (n - 1)%Z else n)) by (field; lra).
    rewrite X in Y. lra.
Qed.

(** The points of the dataset are the rows of the frame, in another order if need be. *)
Definition point_at (g : grid) (la lo : Q * nat) : point := mkP (fst la) (fst lo) None (g_val g (snd la) (snd lo)).

Lemma perm_product {A B C} (f : A -> B -> C) xs xs' ys ys' : Permutation xs xs' -> Permutation ys ys' ->
  Permutation (flat_map (fun x => map (f x) ys) xs) (flat_map (fun x => map (f x) ys') xs').
Proof.
  intros P Q0. transitivity (flat_map (fun x => map (f x) ys') xs).
  - clear P. induction xs; cbn; [constructor|]. apply Permutation_app; [apply Permutation_map, Q0|exact IHxs].
  - apply Permutation_flat_map, P.
Qed.

Lemma combine_seq l s : combine l (seq s (List.length l)) = map (fun i => (nth i l 0, (s + i)%nat)) (seq 0 (List.length l)).
Proof.
  revert s. induction l as [|x l IH]; intros s; [reflexivity|]. cbn [List.length seq combine map nth].
  rewrite IH. f_equal; [rewrite Nat.add_0_r; reflexivity|]. rewrite <- seq_shift, map_map.
  apply map_ext. intros i. f_equal. lia.
Qed.

Lemma points_of_grid g : flat_map (fun la => map (point_at g la) (combine (g_long g) (seq 0 (List.length (g_long g)))))
                          (combine (g_lat g) (seq 0 (List.length (g_lat g)))) = grid_rows g.
Proof.
  rewrite !combine_seq. unfold grid_rows. rewrite !flat_map_concat_map, map_map. f_equal. apply map_ext. intros i.
  rewrite map_map. reflexivity.
Qed.

Lemma flat_singletons {A B} (f : A -> B) l : flat_map (fun x => [f x]) l = map f l.
Proof. induction l; cbn; congruence. Qed.

Lemma flat_none {A B} (l : list A) : flat_map (fun _ => @nil B) l = [].
Proof. induction l; cbn; auto. Qed.

Theorem to_xarray_ok g : has_dup (g_lat g) = false -> has_dup (g_long g) = false ->
  exists ds, to_xarray g = Ok ds /\ Permutation (xr_points ds) (grid_rows g) /\ x_time ds = None /\
    ascending (x_lat ds) /\ ascending (x_long ds).
Proof.
  intros D1 D2. unfold to_xarray. rewrite D1, D2, !andb_false_r. eexists. split; [reflexivity|].
  destruct (Nat.eqb_spec (List.length (g_lat g)) 0) as [E1|E1]; [|destruct (Nat.eqb_spec (List.length (g_long g)) 0) as [E2|E2]].
  - cbn. split; [|split; [reflexivity|split; constructor]]. unfold grid_rows. rewrite E1. constructor.
  - cbn. split; [|split; [reflexivity|split; constructor]]. unfold grid_rows. rewrite E2. cbn [seq map]. rewrite flat_none. constructor.
  - cbn [orb]. split; [|split; [reflexivity|split; apply sort_axis_sorted]]. unfold xr_points. cbn [x_time x_lat x_long x_val].
    transitivity (flat_map (fun la => map (point_at g la) (sort_axis (combine (g_long g) (seq 0 (List.length (g_long g))))))
                           (sort_axis (combine (g_lat g) (seq 0 (List.length (g_lat g)))))).
    { apply Permutation_refl'. apply flat_map_ext. intros la. apply (flat_singletons (fun lo => point_at g la lo)). }
    rewrite <- points_of_grid. apply perm_product; apply sort_axis_perm.
Qed.

(** ** Regions across the antimeridian *)
Lemma crossing_outside b n l i : (long_max b < long_min b) -> linspace true (long_min b) (long_max b) n = Ok l ->
  (0 < i)%nat -> (S i < List.length l)%nat -> ~ long_in b (nth i l 0) /\ long_max b < nth i l 0 < long_min b.
Proof.
  intros C H I J. destruct (linspace_inv _ _ _ _ _ H) as (N & L & V). rewrite L in J. rewrite V by lia.
  assert (P : 0 < inject_Z (n - 1)) by (apply inj_pos; lia).
  assert (X : long_max b < lin (long_min b) ((long_max b - long_min b) / inject_Z (n - 1)) i < long_min b).
  { unfold lin. set (d := (long_max b - long_min b) / inject_Z (n - 1)).
    assert (E : d * inject_Z (n - 1) == long_max b - long_min b) by (unfold d; field; lra).
    assert (K : 0 < inject_Z (Z.of_nat i)) by (apply inj_pos; lia).
    assert (K' : inject_Z (Z.of_nat i) < inject_Z (n - 1)) by (rewrite <- Zlt_Qlt; lia).
    assert (D : d < 0) by nra. split; nra. }
  split; [|exact X]. unfold long_in. destruct (qltb_spec (long_min b) (long_max b)); [lra|]. lra.
Qed.

Lemma imported_by generate p b (right : data -> Prop) g : ~ lat_min b == lat_max b -> ~ long_min b == long_max b ->
  (2 <= s_nx p)%Z -> (2 <= s_ny p)%Z -> generate p b = Ok g -> right (grid_rows g) ->
  linspace true (lat_min b) (lat_max b) (s_ny p) = Ok (g_lat g) -> linspace true (long_min b) (long_max b) (s_nx p) = Ok (g_long g) ->
  imported generate p b axis_over right.
Proof.
  intros D1 D2 Nx Ny G R L1 L2.
  destruct (to_xarray_ok g (linspace_no_dup _ _ _ _ _ D1 L1) (linspace_no_dup _ _ _ _ _ D2 L2)) as (ds & E & P & _ & S1 & S2).
  exists g, ds. split; [exact G|]. split; [apply linspace_axis; assumption|]. split; [apply linspace_axis; assumption|].
  split; [apply grid_rows_spec|]. split; [exact R|]. split; [unfold import_shape; rewrite G; exact E|]. split; [exact P|]. split; assumption.
Qed.
Lemma imported_below generate p b (right : data -> Prop) g : ~ lat_min b == lat_max b -> ~ long_min b == long_max b ->
  (1 <= s_nx p)%Z -> (1 <= s_ny p)%Z -> generate p b = Ok g -> right (grid_rows g) ->
  linspace false (lat_min b) (lat_max b) (s_ny p) = Ok (g_lat g) -> linspace false (long_min b) (long_max b) (s_nx p) = Ok (g_long g) ->
  imported generate p b axis_below right.
Proof.
  intros D1 D2 Nx Ny G R L1 L2.
  destruct (to_xarray_ok g (linspace_no_dup _ _ _ _ _ D1 L1) (linspace_no_dup _ _ _ _ _ D2 L2)) as (ds & E & P & _ & S1 & S2).
  exists g, ds. split; [exact G|]. split; [apply linspace_below; assumption|]. split; [apply linspace_below; assumption|].
  split; [apply grid_rows_spec|]. split; [exact R|]. split; [unfold import_shape; rewrite G; exact E|]. split; [exact P|]. split; assumption.
Qed.
