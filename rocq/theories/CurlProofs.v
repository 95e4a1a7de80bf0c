(** Proofs about the curl of vector fields (C64). *)
From Coq Require Import Sorting.Sorted Permutation.
From Verif Require Import Base QLib Geo Cell Loaders AggProofs Curl CurlSpec.
Open Scope Q_scope.

Lemma osub_diff a b : diff a b (osub a b).
Proof. destruct a, b; cbn; constructor. reflexivity. Qed.
Lemma oadd_total a b : total a b (oadd a b).
Proof. destruct a, b; cbn; constructor. reflexivity. Qed.
Lemma ohalf_half a : half_of a (ohalf a).
Proof. destruct a; cbn; constructor. reflexivity. Qed.
Lemma gradient1_slope n f i : (2 <= n)%nat -> (i < n)%nat -> slope n f i (gradient1 n f i).
Proof.
  intros N I. destruct i as [|i]; cbn [gradient1]; [apply slope_first, osub_diff|].
  destruct (Nat.eqb_spec (S (S i)) n) as [E|E]; [apply slope_last; [auto|apply osub_diff]|].
  eapply slope_inside; [lia|apply osub_diff|apply ohalf_half].
Qed.
Lemma slope_ext n f g i s : (1 <= n)%nat -> (forall k, (k < n)%nat -> f k = g k) -> (2 <= n)%nat -> (i < n)%nat -> slope n f i s -> slope n g i s.
Proof.
  intros _ E N I H. destruct H as [s H|i s H1 H2|i d s H1 H2 H3].
  - apply slope_first. rewrite <- !E by lia. exact H.
  - apply slope_last; [exact H1|]. rewrite <- !E by lia. exact H2.
  - eapply slope_inside; [exact H1| |exact H3]. rewrite <- !E by lia. exact H2.
Qed.

(** ** Labels of a pivoted table *)
Lemma qinsert_sorted x l : StronglySorted Qle l -> StronglySorted Qle (qinsert x l).
Proof.
  induction l as [|y l IH]; intros H; cbn; [repeat constructor|]. inversion H as [|? ? A B]; subst. destruct (qleb_spec x y).
  - constructor; [exact H|]. constructor; [assumption|]. eapply Forall_impl; [|exact B]. cbn. intros z Z. lra.
  - constructor; [apply IH; exact A|]. rewrite Forall_forall. intros z Z. apply (Permutation_in _ (Permutation_sym (qinsert_perm x l))) in Z. destruct Z as [<-|Z]; [lra|].
    rewrite Forall_forall in B. apply B. exact Z.
Qed.
Lemma qsort_sorted l : StronglySorted Qle (qsort l).
Proof. induction l as [|x l IH]; cbn; [constructor|apply qinsert_sorted; exact IH]. Qed.
Definition meets (l : list Q) (x : Q) : Prop := exists y, In y l /\ y == x.
Lemma uniq_spec l : StronglySorted Qle l -> StronglySorted Qlt (uniq l) /\ (forall x, meets (uniq l) x <-> meets l x).
Proof.
  induction l as [|x l IH]; intros H; [split; [constructor|reflexivity]|]. inversion H as [|? ? A B]; subst. destruct (IH A) as [IH1 IH2].
  destruct l as [|y l]; [cbn; split; [repeat constructor|reflexivity]|]. cbn [uniq]. cbn [uniq] in IH1, IH2. rewrite Forall_forall in B.
  destruct (qeqb_spec x y) as [E|E].
  - split; [exact IH1|]. intros z. rewrite IH2. split; intros (w & I & W).
    + exists w. split; [right; exact I|exact W].
    + destruct I as [<-|I]; [exists y; split; [left; reflexivity|lra]|exists w; split; assumption].
  - split.
    + constructor; [exact IH1|]. rewrite Forall_forall. intros z Z. destruct (proj1 (IH2 z) (ex_intro _ z (conj Z (Qeq_refl z)))) as (w & I & W).
      assert (y <= w). { inversion A as [|? ? A1 B1]; subst. destruct I as [<-|I]; [lra|]. rewrite Forall_forall in B1. apply B1. exact I. }
      pose proof (B y (or_introl eq_refl)). lra.
    + intros z. split.
      * intros (w & [<-|I] & W); [exists x; split; [left; reflexivity|exact W]|]. destruct (proj1 (IH2 z) (ex_intro _ w (conj I W))) as (w' & I' & W'). exists w'. split; [right; exact I'|exact W'].
      * intros (w & [<-|I] & W); [exists x; split; [left; reflexivity|exact W]|]. destruct (proj2 (IH2 z) (ex_intro _ w (conj I W))) as (w' & I' & W'). exists w'. split; [right; exact I'|exact W'].
Qed.
Lemma increasing_same l : forall m, StronglySorted Qlt l -> StronglySorted Qlt m -> (forall x, meets l x <-> meets m x) -> Forall2 Qeq l m.
Proof.
  induction l as [|x l IH]; intros m L M E.
  - destruct m as [|y m]; [constructor|]. destruct (proj2 (E y)) as (w & [] & _). exists y. split; [left; reflexivity|reflexivity].
  - destruct m as [|y m]; [destruct (proj1 (E x)) as (w & [] & _); exists x; split; [left; reflexivity|reflexivity]|].
    inversion L as [|? ? L1 L2]; inversion M as [|? ? M1 M2]; subst. rewrite Forall_forall in L2, M2.
    assert (Exy : x == y).
    { destruct (proj1 (E x) (ex_intro _ x (conj (or_introl eq_refl) (Qeq_refl x)))) as (w & [<-|I] & W); [lra|].
      destruct (proj2 (E y) (ex_intro _ y (conj (or_introl eq_refl) (Qeq_refl y)))) as (w' & [<-|I'] & W'); [lra|].
      pose proof (M2 w I). pose proof (L2 w' I'). lra. }
    constructor; [exact Exy|]. apply IH; auto. intros z. split; intros (w & I & W).
    + destruct (proj1 (E z) (ex_intro _ w (conj (or_intror I) W))) as (w' & [<-|I'] & W'); [pose proof (L2 w I); lra|]. exists w'. split; assumption.
    + destruct (proj2 (E z) (ex_intro _ w (conj (or_intror I) W))) as (w' & [<-|I'] & W'); [pose proof (M2 w I); lra|]. exists w'. split; assumption.
Qed.
Lemma labels_are l ys : increasing ys -> (forall x, meets l x <-> meets ys x) -> Forall2 Qeq (labels l) ys.
Proof.
  intros H E. unfold labels. destruct (uniq_spec (qsort l) (qsort_sorted l)) as [A B]. apply increasing_same; [exact A|exact H|].
  intros x. rewrite B, <- E. split; intros (w & I & W); exists w; (split; [|exact W]).
  - apply (Permutation_in _ (Permutation_sym (qsort_perm l))). exact I.
  - apply (Permutation_in _ (qsort_perm l)). exact I.
Qed.

(** ** Places *)
Definition place (p : point) : Q * Q := (Qred (p_lat p), Qred (p_long p)).
Lemma red_eq x y : Qred x = Qred y <-> x == y.
Proof. split; [intros E; rewrite <- (Qred_correct x), <- (Qred_correct y), E; reflexivity|apply Qred_complete]. Qed.
Lemma same_place_iff p q : same_place p q = true <-> place p = place q.
Proof.
  unfold same_place, place. rewrite andb_true_iff. destruct (qeqb_spec (p_lat p) (p_lat q)) as [A|A], (qeqb_spec (p_long p) (p_long q)) as [B|B]; split; intros H; try (destruct H; discriminate); auto.
  - f_equal; apply red_eq; assumption.
  - injection H as H1 H2. apply red_eq in H1, H2. contradiction.
  - injection H as H1 H2. apply red_eq in H1, H2. contradiction.
  - injection H as H1 H2. apply red_eq in H1, H2. contradiction.
Qed.
Lemma twice_spec d : twice d = false <-> NoDup (map place d).
Proof.
  induction d as [|p d IH]; [split; [constructor|reflexivity]|]. cbn. rewrite orb_false_iff, IH. split.
  - intros [A B]. constructor; [|exact B]. intros I. apply in_map_iff in I as (q & E & I).
    assert (X : existsb (same_place p) d = true) by (apply existsb_exists; exists q; split; [exact I|apply same_place_iff; auto]). congruence.
  - intros D. inversion D as [|? ? A B]; subst. split; [|exact B]. destruct (existsb (same_place p) d) eqn:E; [|reflexivity].
    exfalso. apply existsb_exists in E as (q & I & Q). apply same_place_iff in Q. apply A. rewrite Q. apply in_map. exact I.
Qed.
Lemma nodup_map_inj {A B} (f : A -> B) l p q : NoDup (map f l) -> In p l -> In q l -> f p = f q -> p = q.
Proof.
  induction l as [|a l IH]; intros D Ip Iq E; [destruct Ip|]. inversion D as [|? ? X Y]; subst.
  destruct Ip as [<-|Ip], Iq as [<-|Iq]; auto; exfalso; apply X; [rewrite E|rewrite <- E]; apply in_map; assumption.
Qed.
Lemma lookup_is d k p lat long : twice d = false -> In p d -> p_lat p == lat -> p_long p == long -> lookup d k lat long = nth k (p_vals p) None.
Proof.
  intros T I A B. apply twice_spec in T. unfold lookup.
  destruct (find (fun p0 => qeqb (p_lat p0) lat && qeqb (p_long p0) long) d) as [q|] eqn:F.
  - apply find_some in F as [Iq F]. apply andb_true_iff in F as [F1 F2]. qhyp.
    assert (E : q = p); [|rewrite E; reflexivity]. apply (nodup_map_inj place d); auto. unfold place. f_equal; apply red_eq; lra.
  - exfalso. apply (find_none _ _ F p) in I. apply andb_false_iff in I. destruct (qeqb_spec (p_lat p) lat), (qeqb_spec (p_long p) long); try contradiction; destruct I; discriminate.
Qed.

(** ** Grids *)
Lemma in_grid t longs lats u v p : In p (grid_points t longs lats u v) <->
  exists x y, (x < List.length longs)%nat /\ (y < List.length lats)%nat /\ p = mkP (nth y lats 0) (nth x longs 0) t [u x y; v x y].
Proof.
  unfold grid_points. rewrite in_flat_map. split.
  - intros (x & Ix & I). apply in_map_iff in I as (y & <- & Iy). apply in_seq in Ix, Iy. exists x, y. repeat split; lia.
  - intros (x & y & X & Y & ->). exists x. split; [apply in_seq; lia|]. apply in_map_iff. exists y. split; [reflexivity|apply in_seq; lia].
Qed.
Lemma increasing_nth l : increasing l -> forall i j, (i < j)%nat -> (j < List.length l)%nat -> nth i l 0 < nth j l 0.
Proof.
  unfold increasing. induction 1 as [|x l H IH B]; intros i j L J; [cbn in J; lia|]. destruct j as [|j]; [lia|]. destruct i as [|i]; cbn in *.
  - rewrite Forall_forall in B. apply B. apply nth_In. lia.
  - apply IH; lia.
Qed.
Lemma increasing_inj l i j : increasing l -> (i < List.length l)%nat -> (j < List.length l)%nat -> nth i l 0 == nth j l 0 -> i = j.
Proof.
  intros H I J E. destruct (Nat.lt_trichotomy i j) as [L|[L|L]]; auto; pose proof (increasing_nth l H _ _ L); lra || (exfalso; specialize (H0 ltac:(assumption)); lra).
Qed.
Lemma nodup_flat {A B} (f : A -> list B) l : NoDup l -> (forall a, In a l -> NoDup (f a)) -> (forall a b x, In a l -> In b l -> In x (f a) -> In x (f b) -> a = b) -> NoDup (flat_map f l).
Proof.
  induction 1 as [|a l N D IH]; intros F G; cbn; [constructor|].
  assert (X : forall (m1 m2 : list B), NoDup m1 -> NoDup m2 -> (forall x, In x m1 -> ~ In x m2) -> NoDup (m1 ++ m2)%list).
  { clear. induction m1 as [|y m1 IH]; intros m2 A1 A2 A3; [exact A2|]. inversion A1; subst. cbn. constructor.
    - rewrite in_app_iff. intros [I|I]; [contradiction|]. eapply A3; [left; reflexivity|exact I].
    - apply IH; auto. intros x I. apply A3. right. exact I. }
  apply X.
  - apply F. left. reflexivity.
  - apply IH; [intros b I; apply F; right; exact I|]. intros b c x I J. apply G; right; assumption.
  - intros x I J. apply in_flat_map in J as (b & Ib & J). assert (a = b) by (apply (G a b x); auto; [left; reflexivity|right; exact Ib]). subst b. contradiction.
Qed.
Lemma grid_once t longs lats u v : increasing longs -> increasing lats -> NoDup (map place (grid_points t longs lats u v)).
Proof.
  intros Hx Hy. unfold grid_points. rewrite flat_map_concat_map, concat_map, map_map, <- flat_map_concat_map. apply nodup_flat.
  - apply seq_NoDup.
  - intros x Ix. rewrite map_map. apply NoDup_nth_error. intros i j I E. rewrite map_length, seq_length in I.
    rewrite !nth_error_map in E. assert (Ei : nth_error (seq 0 (List.length lats)) i = Some i) by (rewrite (nth_error_nth' _ 0%nat) by (rewrite seq_length; exact I); rewrite seq_nth by exact I; reflexivity).
    rewrite Ei in E. destruct (nth_error (seq 0 (List.length lats)) j) as [j'|] eqn:Ej; [|discriminate].
    assert (J : (j < List.length lats)%nat) by (rewrite <- (seq_length (List.length lats) 0); apply nth_error_Some; congruence).
    assert (j' = j). { rewrite (nth_error_nth' _ 0%nat) in Ej by (rewrite seq_length; exact J). rewrite seq_nth in Ej by exact J. injection Ej as <-. reflexivity. } subst j'.
    cbn in E. injection E as E. apply red_eq in E. eapply increasing_inj; eauto.
  - intros a b p Ia Ib Pa Pb. rewrite map_map in Pa, Pb. apply in_map_iff in Pa as (y & <- & Iy), Pb as (y' & E & Iy'). unfold place in E. cbn in E. injection E as _ E. apply red_eq in E.
    apply in_seq in Ia, Ib. eapply increasing_inj; [exact Hx| | |]; try lia. symmetry. exact E.
Qed.

Section OnGrid.
  Variables (t : option Z) (longs lats : list Q) (u v : nat -> nat -> option Q) (d : data).
  Hypothesis Hx : increasing longs.
  Hypothesis Hy : increasing lats.
  Hypothesis Nx : (0 < List.length longs)%nat.
  Hypothesis Ny : (0 < List.length lats)%nat.
  Hypothesis P : Permutation d (grid_points t longs lats u v).
  Lemma grid_twice : twice d = false.
  Proof. apply twice_spec. eapply Permutation_NoDup; [apply Permutation_map, Permutation_sym, P|apply grid_once; assumption]. Qed.
  Lemma grid_lats : Forall2 Qeq (labels (map p_lat d)) lats.
  Proof.
    apply labels_are; [exact Hy|]. intros x. split.
    - intros (w & I & W). apply in_map_iff in I as (p & <- & I). apply (Permutation_in _ P) in I. apply in_grid in I as (a & b & A & B & ->). cbn in W. exists (nth b lats 0). split; [apply nth_In; exact B|exact W].
    - intros (w & I & W). apply (In_nth _ _ 0) in I as (b & B & <-). exists (nth b lats 0). split; [|exact W].
      apply in_map_iff. exists (mkP (nth b lats 0) (nth 0 longs 0) t [u 0%nat b; v 0%nat b]). split; [reflexivity|].
      apply (Permutation_in _ (Permutation_sym P)). apply in_grid. exists 0%nat, b. auto.
  Qed.
  Lemma grid_longs : Forall2 Qeq (labels (map p_long d)) longs.
  Proof.
    apply labels_are; [exact Hx|]. intros x. split.
    - intros (w & I & W). apply in_map_iff in I as (p & <- & I). apply (Permutation_in _ P) in I. apply in_grid in I as (a & b & A & B & ->). cbn in W. exists (nth a longs 0). split; [apply nth_In; exact A|exact W].
    - intros (w & I & W). apply (In_nth _ _ 0) in I as (a & A & <-). exists (nth a longs 0). split; [|exact W].
      apply in_map_iff. exists (mkP (nth 0 lats 0) (nth a longs 0) t [u a 0%nat; v a 0%nat]). split; [reflexivity|].
      apply (Permutation_in _ (Permutation_sym P)). apply in_grid. exists a, 0%nat. auto.
  Qed.
  Lemma pivot_grid k : exists a, pivot d k = Ok a /\ a_n0 a = List.length lats /\ a_n1 a = List.length longs /\
    forall x y, (x < List.length longs)%nat -> (y < List.length lats)%nat -> a_at a y x = nth k [u x y; v x y] None.
  Proof.
    unfold pivot. rewrite grid_twice. eexists. split; [reflexivity|]. cbn [a_n0 a_n1 a_at].
    assert (L0 : List.length (labels (map p_lat d)) = List.length lats) by (pose proof grid_lats as H; clear -H; induction H; cbn; congruence).
    assert (L1 : List.length (labels (map p_long d)) = List.length longs) by (pose proof grid_longs as H; clear -H; induction H; cbn; congruence).
    split; [exact L0|]. split; [exact L1|]. intros x y X Y.
    apply (lookup_is d k (mkP (nth y lats 0) (nth x longs 0) t [u x y; v x y])); [exact grid_twice| | |].
    - apply (Permutation_in _ (Permutation_sym P)). apply in_grid. exists x, y. auto.
    - cbn. symmetry. apply samel_nth. exact grid_lats.
    - cbn. symmetry. apply samel_nth. exact grid_longs.
  Qed.
End OnGrid.

(** ** Fields *)
Lemma curl_of_arrays fx fy : (2 <= a_n0 fx)%nat -> (2 <= a_n1 fx)%nat -> a_n0 fy = a_n0 fx -> a_n1 fy = a_n1 fx ->
  exists c, curl_field (Ok (fx, fy)) = (if all_nan (entries c) then Ok None else Ok (Some c)) /\ a_n0 c = a_n0 fx /\ a_n1 c = a_n1 fx /\
  forall i j, (i < a_n0 fx)%nat -> (j < a_n1 fx)%nat -> exists p q, slope (a_n0 fx) (fun k => a_at fy k j) i p /\ slope (a_n1 fx) (fun k => a_at fx i k) j q /\ diff p q (a_at c i j).
Proof.
  intros N0 N1 E0 E1. unfold curl_field, gradient_axis0, gradient_axis1, has_one. cbn [bind]. rewrite E0, E1.
  destruct (Nat.eqb_spec (a_n0 fx) 1); [lia|]. destruct (Nat.eqb_spec (a_n1 fx) 1); [lia|]. cbn [orb].
  destruct (Nat.ltb_spec (a_n1 fx) 2); [lia|]. destruct (Nat.ltb_spec (a_n0 fx) 2); [lia|]. cbn [bind].
  eexists. split; [reflexivity|]. cbn. rewrite ?E0, ?E1. split; [reflexivity|]. split; [reflexivity|]. intros i j I J.
  eexists. eexists. split; [apply gradient1_slope; assumption|]. split; [apply gradient1_slope; assumption|]. apply osub_diff.
Qed.
Lemma in_entries a o : In o (entries a) <-> exists i j, (i < a_n0 a)%nat /\ (j < a_n1 a)%nat /\ o = a_at a i j.
Proof.
  unfold entries. rewrite in_flat_map. split.
  - intros (i & Ii & I). apply in_map_iff in I as (j & <- & J). apply in_seq in Ii, J. exists i, j. repeat split; lia.
  - intros (i & j & I & J & ->). exists i. split; [apply in_seq; lia|]. apply in_map. apply in_seq. lia.
Qed.
Lemma all_nan_spec l : all_nan l = true <-> forall o, In o l -> o = None.
Proof.
  unfold all_nan. rewrite forallb_forall. split; intros H o I; specialize (H o I); destruct o; auto; discriminate.
Qed.
Lemma table_arrays t longs lats u v d : increasing longs -> increasing lats -> (2 <= List.length longs)%nat -> (2 <= List.length lats)%nat ->
  Permutation d (grid_points t longs lats u v) ->
  exists c, curl_field (meshgrid_df d) = (if all_nan (entries c) then Ok None else Ok (Some c)) /\ a_n0 c = List.length longs /\ a_n1 c = List.length lats /\
    forall x y, (x < List.length longs)%nat -> (y < List.length lats)%nat -> curl_at (List.length longs) (List.length lats) u v x y (a_at c x y).
Proof.
  intros Hx Hy Nx Ny P. set (nx := List.length longs) in *. set (ny := List.length lats) in *.
  destruct (pivot_grid t longs lats u v d Hx Hy ltac:(lia) ltac:(lia) P 0) as (a & Ea & A0 & A1 & Aat).
  destruct (pivot_grid t longs lats u v d Hx Hy ltac:(lia) ltac:(lia) P 1) as (b & Eb & B0 & B1 & Bat).
  fold nx ny in A0, A1, B0, B1, Aat, Bat.
  destruct (curl_of_arrays (swap a) (swap b)) as (c & Ec & C0 & C1 & Cat); cbn [swap a_n0 a_n1 a_at] in *; try congruence; try lia.
  assert (M : meshgrid_df d = Ok (swap a, swap b)) by (unfold meshgrid_df; rewrite Ea, Eb; reflexivity).
  exists c. rewrite M. split; [exact Ec|]. split; [congruence|]. split; [congruence|].
  intros x y X Y. destruct (Cat x y) as (p & q & Hp & Hq & D); [lia|lia|]. rewrite A1 in Hp. rewrite A0 in Hq.
  exists p, q. split; [|split; [|exact D]].
  - eapply slope_ext; [| | | |exact Hp]; try lia. intros k H. apply (Bat k y H Y).
  - eapply slope_ext; [| | | |exact Hq]; try lia. intros k H. apply (Aat x k X H).
Qed.
Definition Qnat (k : nat) : Q := inject_Z (Z.of_nat k).
Lemma Qnat_S k : Qnat (S k) == Qnat k + 1.
Proof. unfold Qnat. rewrite Nat2Z.inj_succ, <- Z.add_1_r, inject_Z_plus. reflexivity. Qed.
Lemma slope_affine n f a b i s : (forall k, exists w, f k = Some w /\ w == a + b * Qnat k) -> slope n f i s -> exists q, s = Some q /\ q == b.
Proof.
  intros F H. destruct H as [s H|i s _ H|i d s _ H H'].
  - destruct (F 1%nat) as (w1 & E1 & W1), (F 0%nat) as (w0 & E0 & W0). rewrite E1, E0 in H. inversion H; subst. eexists. split; [reflexivity|]. rewrite Qnat_S in W1. cbn in W0, W1. change (Qnat 0) with 0 in *. lra.
  - destruct (F (S i)) as (w1 & E1 & W1), (F i) as (w0 & E0 & W0). rewrite E1, E0 in H. inversion H; subst. eexists. split; [reflexivity|]. rewrite Qnat_S in W1. lra.
  - destruct (F (S (S i))) as (w1 & E1 & W1), (F i) as (w0 & E0 & W0). rewrite E1, E0 in H. inversion H; subst. inversion H'; subst. eexists. split; [reflexivity|]. rewrite !Qnat_S in W1.
    match goal with E : _ == _ / 2 |- _ => rewrite E end. match goal with E : _ == w1 - w0 |- _ => rewrite E end. rewrite W1, W0. field.
Qed.
