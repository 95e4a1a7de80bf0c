(** Proofs about the aggregates of a cell and of blocks (C103, C61). *)
From Coq Require Import Permutation Sorted.
From Verif Require Import Base QLib Geo Cell Loaders AggProofs Downsample DownSpec DownProofs AggSpec.
Open Scope Q_scope.

Lemma known_drop l : known_values l = drop_nan l.
Proof. induction l as [|[x|] l IH]; [reflexivity| |exact IH]. cbn [known_values]. rewrite IH. reflexivity. Qed.
Lemma qinsert_sorted x l : StronglySorted Qle l -> StronglySorted Qle (qinsert x l).
Proof.
  induction l as [|y l IH]; cbn; intros S; [constructor; constructor|]. inversion S as [|? ? S' F]; subst. destruct (qleb x y) eqn:E.
  - constructor; [exact S|]. apply qleb_true in E. constructor; [exact E|]. eapply Forall_impl; [|exact F]. intros z Hz. cbn in *. lra.
  - constructor; [apply IH; exact S'|]. apply qleb_false in E. apply (Permutation_Forall (qinsert_perm x l)). constructor; [lra|exact F].
Qed.
Lemma qsort_sorted l : StronglySorted Qle (qsort l).
Proof. induction l as [|x l IH]; cbn; [constructor|]. apply qinsert_sorted, IH. Qed.
Lemma nan_agg_median l : median_of l (nan_agg qmedian l).
Proof.
  unfold nan_agg. destruct (drop_nan l) as [|x vs] eqn:E; [apply drop_nan_nil; exact E|]. rewrite <- E. unfold median_of. rewrite known_drop.
  exists (qsort (drop_nan l)). split; [apply Permutation_sym, qsort_perm|]. split; [apply qsort_sorted|].
  assert (L : List.length (drop_nan l) <> 0%nat) by (rewrite E; discriminate). unfold qmedian. set (n := List.length (drop_nan l)) in *.
  assert (Ls := qsort_length (drop_nan l)). fold n in Ls.
  assert (G : forall k, (k < n)%nat -> nth_error (qsort (drop_nan l)) k = Some (nth k (qsort (drop_nan l)) 0)) by (intros k K; apply nth_error_nth'; lia).
  destruct (Nat.even n) eqn:Ev.
  - apply Nat.even_spec in Ev as (h & Eh). replace (Nat.div n 2) with h by (rewrite Eh, Nat.mul_comm, Nat.div_mul; lia).
    exists (h - 1)%nat. right. do 2 eexists. split; [split; [lia|split; [apply G; lia|]]|].
    + replace (S (h - 1)) with h by lia. apply G. lia.
    + field.
  - assert (O : Nat.odd n = true) by (rewrite <- Nat.negb_even, Ev; reflexivity). apply Nat.odd_spec in O as (h & Eh).
    replace (Nat.div n 2) with h by (rewrite Eh, Nat.add_comm, Nat.mul_comm, Nat.div_add; [reflexivity|lia]).
    exists h. left. split; [lia|apply G; lia].
Qed.
Lemma total_known l : total l == qsum (known_values l).
Proof. rewrite known_drop. apply total_drop. Qed.
Lemma known_map f l : known_values (map (option_map f) l) = map f (known_values l).
Proof. induction l as [|[x|] l IH]; cbn; [reflexivity|rewrite IH; reflexivity|exact IH]. Qed.
Lemma number_known_values l : number l == qlen (known_values l).
Proof. rewrite known_drop. apply number_drop. Qed.
Lemma deviation_some root less d l : ~ none_known l -> ~ number l == less -> d == qlen (drop_nan l) - less -> deviation_of root less l (Some (root (sq_dev (drop_nan l) / d))).
Proof.
  intros K N D. exists (qmean (drop_nan l)). eexists. split; [|split; [exact N|split; [|reflexivity]]].
  - pose proof (nan_agg_mean l) as M. unfold nan_agg in M. destruct (drop_nan l) as [|x vs] eqn:E; [apply drop_nan_nil in E; contradiction|]. exact M.
  - rewrite total_known, known_map, known_drop. rewrite number_drop in N |- *. unfold sq_dev. rewrite <- D. field. intros Z. apply N. lra.
Qed.
Lemma nan_agg_deviation root l : deviation_of root 0 l (nan_agg (fun l => root (sq_dev l / qlen l)) l).
Proof.
  unfold nan_agg. destruct (drop_nan l) as [|x vs] eqn:E; [left; apply drop_nan_nil; exact E|]. rewrite <- E.
  apply deviation_some; [rewrite <- drop_nan_nil, E; discriminate| |ring]. rewrite number_drop, E, qlen_cons. pose proof (@qlen_nonneg Q vs). lra.
Qed.
(** ** Cells *)
Lemma all_nan_nil l : all_nan l = true <-> drop_nan l = [].
Proof.
  induction l as [|[x|] l IH]; [split; reflexivity| |exact IH]. split; discriminate.
Qed.
Lemma xr_value f l : (if Nat.eqb (List.length l) 0 then Ok None else if all_nan l then Ok None else Ok (reduce true (fun l => Some (f l)) l)) = Ok (nan_agg f l).
Proof.
  destruct l as [|o l]; [reflexivity|]. cbn [List.length Nat.eqb]. destruct (all_nan (o :: l)) eqn:A.
  - apply all_nan_nil in A. unfold nan_agg. rewrite A. reflexivity.
  - unfold reduce, nan_agg. destruct (drop_nan (o :: l)) as [|x vs] eqn:E; [apply all_nan_nil in E; congruence|reflexivity].
Qed.
Lemma nan_agg_somes f l : nan_agg f (map Some (drop_nan l)) = nan_agg f l.
Proof. unfold nan_agg. rewrite drop_nan_some. reflexivity. Qed.
Lemma df_deviation root l : exists v, value_df root "STD" true l = Ok v /\ deviation_of root 1 l v.
Proof.
  unfold value_df. cbn [String.eqb Ascii.eqb Bool.eqb]. destruct (drop_nan l) as [|x vs] eqn:E.
  - exists None. split; [reflexivity|]. left. apply drop_nan_nil. exact E.
  - cbn [map List.length Nat.eqb all_nan forallb andb]. unfold reduce. change (Some x :: map Some vs) with (map Some (x :: vs)). rewrite drop_nan_some.
    destruct (Nat.eqb_spec (List.length (x :: vs)) 1) as [L|L].
    + exists None. split; [reflexivity|]. right. rewrite number_drop, E. unfold qlen. rewrite L. reflexivity.
    + eexists. split; [reflexivity|]. rewrite <- E. apply deviation_some; [rewrite <- drop_nan_nil, E; discriminate| |reflexivity].
      rewrite number_drop, E. unfold qlen. intros H. apply L. change 1 with (inject_Z 1) in H. rewrite inject_Z_injective in H. lia.
Qed.
(** ** Blocks *)
Lemma steps_by (agg : list (option Q) -> option Q -> Prop) f m n ds : (0 < m)%Z -> (0 < n)%Z -> (forall l, agg l (nan_agg f l)) ->
  exists ds', (d <- coarsen_lat f n ds ;; coarsen_long f m d) = Ok ds' /\ in_steps agg m n ds ds'.
Proof.
  intros M N A. destruct (coarsened f m n ds M N) as (ds' & E & H1 & H2 & H3 & H4). exists ds'. split; [exact E|]. split; [exact H1|]. split; [exact H2|]. split; [exact H3|].
  intros I J la lo t v bl bo Ha Ho Bl Bo. destruct (H4 I J la lo t v bl bo Ha Ho Bl Bo) as (_ & _ & ->). eexists. split; [|apply A].
  clear - A. induction bo as [|x bo IH]; [constructor|]. cbn [map]. constructor; [apply A|exact IH].
Qed.
