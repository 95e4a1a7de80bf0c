(** Proofs about downsampling (C61). *)
From Verif Require Import Base QLib Geo Cell Loaders AggProofs Downsample DownSpec.
Open Scope Q_scope.

(** ** Blocks *)
Lemma firstn_nth {A} (l : list A) : forall n r, nth_error (firstn n l) r = if (r <? n)%nat then nth_error l r else None.
Proof.
  induction l as [|a l IH]; intros n r; destruct n; [destruct r; reflexivity|cbn [firstn]; destruct r; [reflexivity|destruct (S r <? S n)%nat; reflexivity]|destruct r; reflexivity|].
  destruct r; [reflexivity|]. cbn [firstn nth_error]. rewrite IH. reflexivity.
Qed.
Lemma skipn_nth {A} (l : list A) : forall n r, nth_error (skipn n l) r = nth_error l (n + r).
Proof. induction l as [|a l IH]; intros n r; destruct n; cbn; try reflexivity; [destruct r; reflexivity|apply IH]. Qed.
Lemma nth_error_ext {A} (a b : list A) : (forall r, nth_error a r = nth_error b r) -> a = b.
Proof.
  revert b. induction a as [|x a IH]; intros [|y b] H; [reflexivity|discriminate (H 0%nat)|discriminate (H 0%nat)|].
  assert (E := H 0%nat). injection E as <-. f_equal. apply IH. intros r. apply (H (S r)).
Qed.
Lemma is_block_iff {A} n I (l b : list A) : is_block n I l b <-> b = firstn n (skipn (I * n) l).
Proof.
  split.
  - intros H. apply nth_error_ext. intros r. rewrite H, firstn_nth, skipn_nth. reflexivity.
  - intros -> r. rewrite firstn_nth, skipn_nth. reflexivity.
Qed.
Lemma chunk_count n len I : (0 < n)%nat -> (I < Nat.div (len + n - 1) n <-> I * n < len)%nat.
Proof.
  intros N. split; intros H.
  - assert (K : (n * S I <= len + n - 1)%nat); [|nia]. etransitivity; [|apply (Nat.mul_div_le (len + n - 1) n); lia]. apply Nat.mul_le_mono_l. lia.
  - destruct (Nat.lt_ge_cases I (Nat.div (len + n - 1) n)) as [K|K]; [exact K|]. exfalso.
    pose proof (Nat.mul_succ_div_gt (len + n - 1) n ltac:(lia)) as G. assert (n * S (Nat.div (len + n - 1) n) <= n * S I)%nat by (apply Nat.mul_le_mono_l; lia). nia.
Qed.
Lemma chunks_nth {A} n (l : list A) I : (0 < n)%nat ->
  nth_error (chunks n l) I = if (I * n <? List.length l)%nat then Some (firstn n (skipn (I * n) l)) else None.
Proof.
  intros N. unfold chunks. destruct (Nat.ltb_spec (I * n) (List.length l)) as [L|L].
  - apply (chunk_count n _ I N) in L. erewrite map_nth_error; [reflexivity|]. rewrite nth_error_nth' with (d := 0%nat) by (rewrite seq_length; exact L). rewrite seq_nth by exact L. reflexivity.
  - apply nth_error_None. rewrite map_length, seq_length. destruct (Nat.lt_ge_cases I (Nat.div (List.length l + n - 1) n)) as [K|K]; [|lia].
    apply (chunk_count n _ I N) in K. lia.
Qed.
Lemma block_nonempty {A} n I (l : list A) : (0 < n)%nat -> (I * n < List.length l)%nat -> firstn n (skipn (I * n) l) <> [].
Proof.
  intros N L E. assert (K : nth_error (firstn n (skipn (I * n) l)) 0 = nth_error l (I * n)).
  { rewrite firstn_nth, skipn_nth. destruct (Nat.ltb_spec 0 n); [|lia]. rewrite Nat.add_0_r. reflexivity. }
  rewrite E in K. cbn in K. symmetry in K. apply nth_error_None in K. lia.
Qed.
Lemma block_empty {A} n I (l : list A) : (List.length l <= I * n)%nat -> firstn n (skipn (I * n) l) = [].
Proof. intros L. rewrite skipn_all2 by exact L. apply firstn_nil. Qed.

Lemma combine_nth_error {A B} (a : list A) (b : list B) I x y : nth_error a I = Some x -> nth_error b I = Some y -> nth_error (combine a b) I = Some (x, y).
Proof. revert b I. induction a as [|u a IH]; intros [|w b] [|I] H K; try discriminate; [injection H as <-; injection K as <-; reflexivity|]. cbn. apply IH; assumption. Qed.
Lemma coarse_axis_nth n (axis : list (Q * nat)) I : (0 < n)%nat ->
  nth_error (coarse_axis (chunks n axis)) I =
  if (I * n <? List.length axis)%nat then Some (qmean (map fst (firstn n (skipn (I * n) axis))), I) else None.
Proof.
  intros N. unfold coarse_axis. assert (C := chunks_nth n axis I N). destruct (Nat.ltb_spec (I * n) (List.length axis)) as [L|L].
  - apply combine_nth_error.
    + erewrite map_nth_error; [reflexivity|exact C].
    + assert (K : (I < List.length (chunks n axis))%nat) by (apply nth_error_Some; congruence).
      rewrite nth_error_nth' with (d := 0%nat) by (rewrite seq_length; exact K). rewrite seq_nth by exact K. reflexivity.
  - apply nth_error_None. rewrite combine_length, map_length, seq_length. apply nth_error_None in C. lia.
Qed.
Lemma coarse_blocked n axis : (0 < n)%nat -> blocked n axis (coarse_axis (chunks n axis)).
Proof.
  intros N I. rewrite coarse_axis_nth by exact N. destruct (Nat.ltb_spec (I * n) (List.length axis)) as [L|L].
  - exists (firstn n (skipn (I * n) axis)). split; [apply is_block_iff; reflexivity|]. split; [apply block_nonempty; assumption|reflexivity].
  - intros b H. apply is_block_iff in H as ->. apply block_empty. exact L.
Qed.

(** ** Values *)
Lemma drop_nan_none {A} (ls : list A) : drop_nan (map (fun _ => None) ls) = [].
Proof. induction ls; [reflexivity|exact IHls]. Qed.
Lemma agg_cols_nth f ls v : nth v (agg_cols f ls) None = nan_agg f (map (fun l => nth v l None) ls).
Proof.
  unfold agg_cols. destruct (Nat.lt_ge_cases v (list_max (map (@List.length _) ls))) as [L|L].
  - apply nth_error_nth. erewrite map_nth_error; [reflexivity|]. rewrite nth_error_nth' with (d := 0%nat) by (rewrite seq_length; exact L). rewrite seq_nth by exact L. reflexivity.
  - rewrite nth_overflow by (rewrite map_length, seq_length; exact L). unfold nan_agg.
    assert (E : map (fun l : list (option Q) => nth v l None) ls = map (fun _ => None) ls).
    { apply map_ext_in. intros l I. apply nth_overflow. apply list_max_le in L. rewrite Forall_forall in L. apply L. apply in_map. exact I. }
    rewrite E, drop_nan_none. reflexivity.
Qed.

Theorem coarsened f m n ds : (0 < m)%Z -> (0 < n)%Z ->
  exists ds', (d <- coarsen_lat f n ds ;; coarsen_long f m d) = Ok ds' /\
    blocked (Z.to_nat n) (x_lat ds) (x_lat ds') /\ blocked (Z.to_nat m) (x_long ds) (x_long ds') /\ x_time ds' = x_time ds /\
    forall I J la lo t v bl bo, nth_error (x_lat ds') I = Some la -> nth_error (x_long ds') J = Some lo ->
      is_block (Z.to_nat n) I (x_lat ds) bl -> is_block (Z.to_nat m) J (x_long ds) bo ->
      bl <> [] /\ bo <> [] /\
      nth v (x_val ds' (snd la) (snd lo) t) None =
      nan_agg f (map (fun lo => nan_agg f (map (fun la => nth v (x_val ds (snd la) (snd lo) t) None) bl)) bo).
Proof.
  intros M N. unfold coarsen_lat, coarsen_long. destruct (Z.leb_spec n 0); [lia|]. cbn [bind]. destruct (Z.leb_spec m 0); [lia|].
  set (n' := Z.to_nat n). set (m' := Z.to_nat m). assert (N' : (0 < n')%nat) by (unfold n'; lia). assert (M' : (0 < m')%nat) by (unfold m'; lia).
  eexists. split; [reflexivity|]. cbn [x_lat x_long x_time x_val]. split; [apply coarse_blocked; exact N'|]. split; [apply coarse_blocked; exact M'|]. split; [reflexivity|].
  intros I J la lo t v bl bo Ha Ho Ba Bo. rewrite coarse_axis_nth in Ha, Ho by assumption.
  assert (Ca := chunks_nth n' (x_lat ds) I N'). assert (Co := chunks_nth m' (x_long ds) J M').
  destruct (Nat.ltb_spec (I * n') (List.length (x_lat ds))) as [La|]; [|discriminate]. destruct (Nat.ltb_spec (J * m') (List.length (x_long ds))) as [Lo|]; [|discriminate].
  apply is_block_iff in Ba, Bo. rewrite <- Ba in *. rewrite <- Bo in *. injection Ha as <-. injection Ho as <-. cbn [snd].
  split; [rewrite Ba; apply block_nonempty; assumption|]. split; [rewrite Bo; apply block_nonempty; assumption|].
  rewrite (nth_error_nth _ _ _ Co). rewrite agg_cols_nth, map_map. f_equal. apply map_ext. intros q. rewrite agg_cols_nth, map_map.
  rewrite (nth_error_nth _ _ _ Ca). reflexivity.
Qed.

(** ** Aggregates of aggregates *)
Lemma drop_nan_in l x : In x (drop_nan l) <-> In (Some x) l.
Proof.
  unfold drop_nan. rewrite in_flat_map. split.
  - intros ([q|] & I & H); [destruct H as [->|[]]; exact I|destruct H].
  - intros I. exists (Some x). split; [exact I|left; reflexivity].
Qed.
Lemma drop_nan_nil l : drop_nan l = [] <-> none_known l.
Proof.
  split.
  - intros E x I. apply drop_nan_in in I. rewrite E in I. exact I.
  - intros H. destruct (drop_nan l) as [|x vs] eqn:E; [reflexivity|]. exfalso. apply (H x). apply drop_nan_in. rewrite E. left. reflexivity.
Qed.
Lemma nan_agg_least l : least l (nan_agg qmin_list l).
Proof.
  unfold nan_agg. destruct (drop_nan l) as [|x vs] eqn:E; [apply drop_nan_nil; exact E|]. rewrite <- E.
  destruct (qmin_list_spec (drop_nan l)) as [A B]; [rewrite E; discriminate|]. split; [apply drop_nan_in; exact A|]. intros y Y. apply B, drop_nan_in, Y.
Qed.
Lemma nan_agg_greatest l : greatest l (nan_agg qmax_list l).
Proof.
  unfold nan_agg. destruct (drop_nan l) as [|x vs] eqn:E; [apply drop_nan_nil; exact E|]. rewrite <- E.
  destruct (qmax_list_spec (drop_nan l)) as [A B]; [rewrite E; discriminate|]. split; [apply drop_nan_in; exact A|]. intros y Y. apply B, drop_nan_in, Y.
Qed.
Lemma least_blocks {A} (g : A -> list (option Q)) (ls : list A) :
  least (flat_map g ls) (nan_agg qmin_list (map (fun a => nan_agg qmin_list (g a)) ls)).
Proof.
  pose proof (nan_agg_least (map (fun a => nan_agg qmin_list (g a)) ls)) as H. destruct (nan_agg qmin_list (map _ ls)) as [q|].
  - destruct H as [I H]. apply in_map_iff in I as (a & E & Ia). pose proof (nan_agg_least (g a)) as G. rewrite E in G. destruct G as [G1 G2]. split.
    + apply in_flat_map. eauto.
    + intros x X. apply in_flat_map in X as (b & Ib & X). pose proof (nan_agg_least (g b)) as K. destruct (nan_agg qmin_list (g b)) as [r|] eqn:Eb; [|destruct (K x X)].
      destruct K as [K1 K2]. apply (Qle_trans _ r); [|apply K2; exact X]. apply H. apply in_map_iff. eauto.
  - intros x X. apply in_flat_map in X as (b & Ib & X). pose proof (nan_agg_least (g b)) as K. destruct (nan_agg qmin_list (g b)) as [r|] eqn:Eb; [|destruct (K x X)].
    apply (H r). apply in_map_iff. eauto.
Qed.
Lemma greatest_blocks {A} (g : A -> list (option Q)) (ls : list A) :
  greatest (flat_map g ls) (nan_agg qmax_list (map (fun a => nan_agg qmax_list (g a)) ls)).
Proof.
  pose proof (nan_agg_greatest (map (fun a => nan_agg qmax_list (g a)) ls)) as H. destruct (nan_agg qmax_list (map _ ls)) as [q|].
  - destruct H as [I H]. apply in_map_iff in I as (a & E & Ia). pose proof (nan_agg_greatest (g a)) as G. rewrite E in G. destruct G as [G1 G2]. split.
    + apply in_flat_map. eauto.
    + intros x X. apply in_flat_map in X as (b & Ib & X). pose proof (nan_agg_greatest (g b)) as K. destruct (nan_agg qmax_list (g b)) as [r|] eqn:Eb; [|destruct (K x X)].
      destruct K as [K1 K2]. apply (Qle_trans _ r); [apply K2; exact X|]. apply H. apply in_map_iff. eauto.
  - intros x X. apply in_flat_map in X as (b & Ib & X). pose proof (nan_agg_greatest (g b)) as K. destruct (nan_agg qmax_list (g b)) as [r|] eqn:Eb; [|destruct (K x X)].
    apply (H r). apply in_map_iff. eauto.
Qed.
(** Any reduction that stays within its values stays within the block's values. *)
Definition bounded (f : list Q -> Q) : Prop := forall l lo hi, l <> [] -> (forall x, In x l -> lo <= x <= hi) -> lo <= f l <= hi.
Lemma within_agg f l : bounded f -> within_values l (nan_agg f l).
Proof.
  intros B. unfold nan_agg. destruct (drop_nan l) as [|x vs] eqn:E; [apply drop_nan_nil; exact E|]. rewrite <- E. assert (N : drop_nan l <> []) by (rewrite E; discriminate).
  destruct (qmin_list_spec _ N) as [A1 A2]. destruct (qmax_list_spec _ N) as [A3 A4]. exists (qmin_list (drop_nan l)), (qmax_list (drop_nan l)).
  split; [apply drop_nan_in; exact A1|]. split; [apply drop_nan_in; exact A3|]. apply B; [exact N|]. intros y Y. split; [apply A2|apply A4]; exact Y.
Qed.
Lemma within_blocks {A} f (g : A -> list (option Q)) (ls : list A) : bounded f ->
  within_values (flat_map g ls) (nan_agg f (map (fun a => nan_agg f (g a)) ls)).
Proof.
  intros B. pose proof (within_agg f (map (fun a => nan_agg f (g a)) ls) B) as H. destruct (nan_agg f (map _ ls)) as [q|].
  - destruct H as (a & b & Ia & Ib & H). apply in_map_iff in Ia as (u & Eu & Iu). apply in_map_iff in Ib as (w & Ew & Iw).
    pose proof (within_agg f (g u) B) as Ku. pose proof (within_agg f (g w) B) as Kw. rewrite Eu in Ku. rewrite Ew in Kw.
    destruct Ku as (a1 & b1 & I1 & _ & H1). destruct Kw as (a2 & b2 & _ & I2 & H2). exists a1, b2. split; [apply in_flat_map; eauto|]. split; [apply in_flat_map; eauto|]. lra.
  - intros x X. apply in_flat_map in X as (b & Ib & X). pose proof (within_agg f (g b) B) as K. destruct (nan_agg f (g b)) as [r|] eqn:Eb; [|destruct (K x X)].
    apply (H r). apply in_map_iff. eauto.
Qed.

(** ** Means *)
Lemma total_drop l : total l == qsum (drop_nan l).
Proof. induction l as [|[x|] l IH]; [reflexivity|change (x + total l == x + qsum (drop_nan l)); rewrite IH; reflexivity|exact IH]. Qed.
Lemma qlen_cons {A} (a : A) l : qlen (a :: l) == 1 + qlen l.
Proof. unfold qlen. cbn [List.length]. rewrite Nat2Z.inj_succ, <- Z.add_1_l, inject_Z_plus. reflexivity. Qed.
Lemma qlen_nil {A} : qlen (@nil A) == 0.
Proof. reflexivity. Qed.
Lemma number_drop l : number l == qlen (drop_nan l).
Proof.
  induction l as [|[x|] l IH]; [reflexivity| |exact IH]. change (1 + number l == qlen (x :: drop_nan l)). rewrite qlen_cons, IH. reflexivity.
Qed.
Lemma qlen_nonneg {A} (l : list A) : 0 <= qlen l.
Proof. unfold qlen. change 0 with (inject_Z 0). rewrite <- Zle_Qle. lia. Qed.
Lemma nan_agg_mean l : mean_of l (nan_agg qmean l).
Proof.
  unfold nan_agg. destruct (drop_nan l) as [|x vs] eqn:E; [apply drop_nan_nil; exact E|]. split; [intros H; apply drop_nan_nil in H; congruence|].
  rewrite number_drop, total_drop, E. unfold qmean. field. rewrite qlen_cons. pose proof (qlen_nonneg vs). lra.
Qed.
Lemma total_app a b : total (a ++ b) == total a + total b.
Proof. induction a as [|[x|] a IH]; cbn [app total]; [lra|rewrite IH; lra|exact IH]. Qed.
Lemma number_app a b : number (a ++ b) == number a + number b.
Proof. induction a as [|[x|] a IH]; cbn [app number]; [lra|rewrite IH; lra|exact IH]. Qed.
Lemma number_known l : ~ In None l -> number l == qlen l.
Proof.
  induction l as [|[x|] l IH]; intros H; [reflexivity| |exfalso; apply H; left; reflexivity]. cbn [number]. rewrite qlen_cons, IH; [reflexivity|].
  intros I. apply H. right. exact I.
Qed.
(** Blocks of the same size without missing values. *)
Lemma mean_blocks {A B} (h : A -> B -> option Q) (bl : list B) (bo : list A) : bl <> [] -> bo <> [] ->
  (forall a b, In a bo -> In b bl -> h a b <> None) ->
  mean_of (flat_map (fun a => map (h a) bl) bo) (nan_agg qmean (map (fun a => nan_agg qmean (map (h a) bl)) bo)).
Proof.
  intros Nl No H. set (n := qlen bl). assert (Pn : 0 < n) by (unfold n; destruct bl; [contradiction|rewrite qlen_cons; pose proof (qlen_nonneg bl); lra]).
  assert (R : forall a, In a bo -> exists q, nan_agg qmean (map (h a) bl) = Some q /\ q * n == total (map (h a) bl) /\ number (map (h a) bl) == n).
  { intros a Ia. assert (K : ~ In None (map (h a) bl)) by (intros I; apply in_map_iff in I as (b & E & Ib); exact (H a b Ia Ib E)).
    assert (L : number (map (h a) bl) == n) by (rewrite number_known by exact K; unfold n, qlen; rewrite map_length; reflexivity).
    pose proof (nan_agg_mean (map (h a) bl)) as G. destruct (nan_agg qmean (map (h a) bl)) as [q|].
    - exists q. split; [reflexivity|]. split; [|exact L]. destruct G as [_ G]. rewrite L in G. exact G.
    - exfalso. apply drop_nan_nil in G. assert (Z0 := number_drop (map (h a) bl)). rewrite G, L in Z0. rewrite qlen_nil in Z0. lra. }
  assert (S : forall l, (forall a, In a l -> In a bo) -> ~ In None (map (fun a => nan_agg qmean (map (h a) bl)) l) /\
     total (flat_map (fun a => map (h a) bl) l) == total (map (fun a => nan_agg qmean (map (h a) bl)) l) * n /\
     number (flat_map (fun a => map (h a) bl) l) == qlen l * n).
  { induction l as [|a l IH]; intros Hl; [split; [intros []|split; [cbn [flat_map map total]; lra|rewrite qlen_nil; cbn [flat_map number]; lra]]|].
    destruct IH as (I1 & I2 & I3); [intros; apply Hl; right; assumption|]. destruct (R a) as (q & E & Q1 & Q2); [apply Hl; left; reflexivity|].
    cbn [flat_map map]. rewrite E. split; [intros [X|X]; [discriminate|exact (I1 X)]|]. split.
    - rewrite total_app, I2. cbn [total]. lra.
    - rewrite number_app, I3, Q2, qlen_cons. lra. }
  destruct (S bo (fun a I => I)) as (S1 & S2 & S3). pose proof (nan_agg_mean (map (fun a => nan_agg qmean (map (h a) bl)) bo)) as G.
  assert (Lb := number_known _ S1). assert (Lq : qlen (map (fun a => nan_agg qmean (map (h a) bl)) bo) = qlen bo) by (unfold qlen; rewrite map_length; reflexivity).
  rewrite Lq in Lb. assert (Po : 0 < qlen bo) by (destruct bo; [contradiction|rewrite qlen_cons; pose proof (qlen_nonneg bo); lra]).
  destruct (nan_agg qmean (map (fun a => nan_agg qmean (map (h a) bl)) bo)) as [q|].
  - destruct G as [_ G]. split.
    + intros X. apply drop_nan_nil in X. assert (Z0 := number_drop (flat_map (fun a => map (h a) bl) bo)). rewrite X, S3 in Z0. rewrite qlen_nil in Z0. nra.
    + rewrite S3, S2, <- G, Lb. ring.
  - exfalso. apply drop_nan_nil in G. assert (Z0 := number_drop (map (fun a => nan_agg qmean (map (h a) bl)) bo)). rewrite G, Lb in Z0. rewrite qlen_nil in Z0. lra.
Qed.

(** The blocks cut the axis up. *)
Lemma skipn_skipn {A} a b (l : list A) : skipn a (skipn b l) = skipn (b + a) l.
Proof. apply nth_error_ext. intros r. rewrite !skipn_nth. f_equal. lia. Qed.
Lemma concat_chunks {A} n (l : list A) : (0 < n)%nat -> List.concat (chunks n l) = l.
Proof.
  intros N. unfold chunks. assert (K : forall c s, (List.length l <= (s + c) * n)%nat -> List.concat (map (fun i => firstn n (skipn (i * n) l)) (seq s c)) = skipn (s * n) l).
  { induction c as [|c IH]; intros s L; cbn [seq map List.concat].
    - rewrite skipn_all2 by lia. reflexivity.
    - rewrite IH by lia. rewrite <- (firstn_skipn n (skipn (s * n) l)) at 2. f_equal. rewrite skipn_skipn. f_equal. lia. }
  rewrite K; [reflexivity|]. cbn [Nat.add]. destruct (Nat.lt_ge_cases (Nat.div (List.length l + n - 1) n * n) (List.length l)) as [X|X]; [|exact X].
  apply (chunk_count n) in X; [|exact N]. lia.
Qed.

Lemma downsampled_by (agg : list (option Q) -> option Q -> Prop) f m n ds : (0 < m)%Z -> (0 < n)%Z ->
  (forall (bl bo : list (Q * nat)) h, bl <> [] -> bo <> [] -> (forall a b, exists v t, h a b = nth v (x_val ds (snd b) (snd a) t) None) ->
     agg (flat_map (fun a => map (h a) bl) bo) (nan_agg f (map (fun a => nan_agg f (map (h a) bl)) bo))) ->
  exists ds', (d <- coarsen_lat f n ds ;; coarsen_long f m d) = Ok ds' /\ downsampled agg m n ds ds'.
Proof.
  intros M N H. destruct (coarsened f m n ds M N) as (ds' & E & H1 & H2 & H3 & H4). exists ds'. split; [exact E|].
  split; [exact H1|]. split; [exact H2|]. split; [exact H3|]. intros I J la lo t v bl bo Ha Ho Ba Bo.
  destruct (H4 I J la lo t v bl bo Ha Ho Ba Bo) as (Nl & No & ->). unfold block_values.
  apply (H bl bo (fun lo la => nth v (x_val ds (snd la) (snd lo) t) None)); eauto.
Qed.
Lemma not_unit m n : (m, n) <> (1, 1)%Z -> ((m =? 1)%Z && (n =? 1)%Z)%bool = false.
Proof. intros D. destruct (Z.eqb_spec m 1), (Z.eqb_spec n 1); try reflexivity. exfalso. apply D. congruence. Qed.
