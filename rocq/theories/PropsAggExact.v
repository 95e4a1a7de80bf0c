(** Property theorems C103 and C61: exactly which aggregates cells and blocks hold.  The
    proofs are in AggExact.v. *)
From Coq Require Import Permutation Sorted.
From Verif Require Import Base QLib Geo Cell Loaders AggProofs Downsample DownSpec DownProofs Spec MeshSpec DataSpec TrimProofs AggSpec AggExact.
From Verif Require PropsData.
Open Scope Q_scope.

(** The aggregates of the known values of a cell. *)
Theorem C103_exact : forall (from_xr : bool) root agg l,
  In agg (if from_xr then ["MIN"; "MAX"; "MEAN"; "MEDIAN"; "STD"; "RMSE"] else ["MIN"; "MAX"; "MEAN"; "MEDIAN"; "STD"])%string ->
  exists v, (if from_xr then value_xr root agg true l else value_df root agg true l) = Ok v /\ asked_for from_xr root agg l v.
Proof.
  intros from_xr root agg l I.
  assert (V : forall agg f, (agg = "MIN" /\ f = qmin_list \/ agg = "MAX" /\ f = qmax_list \/ agg = "MEAN" /\ f = qmean \/ agg = "MEDIAN" /\ f = qmedian)%string ->
    (if from_xr then value_xr root agg true l else value_df root agg true l) = Ok (nan_agg f l)).
  { clear. intros agg f H. destruct from_xr; [rewrite <- xr_value|rewrite <- nan_agg_somes, <- xr_value]; destruct H as [[-> ->]|[[-> ->]|[[-> ->]|[-> ->]]]]; reflexivity. }
  assert (C : In agg ["MIN"; "MAX"; "MEAN"; "MEDIAN"; "STD"]%string \/ agg = "RMSE"%string /\ from_xr = true) by (destruct from_xr; cbn in I |- *; intuition).
  destruct C as [[<-|[<-|[<-|[<-|[<-|[]]]]]]|[-> ->]].
  - eexists. split; [apply V; left; split; reflexivity|left; split; [reflexivity|apply nan_agg_least]].
  - eexists. split; [apply V; right; left; split; reflexivity|right; left; split; [reflexivity|apply nan_agg_greatest]].
  - eexists. split; [apply V; right; right; left; split; reflexivity|right; right; left; split; [reflexivity|apply nan_agg_mean]].
  - eexists. split; [apply V; right; right; right; split; reflexivity|right; right; right; left; split; [reflexivity|apply nan_agg_median]].
  - assert (E : exists v, (if from_xr then value_xr root "STD" true l else value_df root "STD" true l) = Ok v /\ deviation_of root (if from_xr then 0 else 1) l v).
    { destruct from_xr; [|apply df_deviation]. eexists. split; [|apply nan_agg_deviation]. rewrite <- xr_value. reflexivity. }
    destruct E as (v & E & H). exists v. split; [exact E|]. right. right. right. right. left. split; [reflexivity|exact H].
  - eexists. split; [|right; right; right; right; right; split; [reflexivity|split; [reflexivity|apply nan_agg_deviation]]]. rewrite <- xr_value. reflexivity.
Qed.
Print Assumptions C103_exact.
(** What a source gives for a region is the aggregate of exactly its points there. *)
Theorem C103_region : forall (from_xr : bool) root agg name b d, (long_min b < long_max b)%Q -> times_ok (time_range b) ->
  In agg (if from_xr then ["MIN"; "MAX"; "MEAN"; "MEDIAN"; "STD"; "RMSE"] else ["MIN"; "MAX"; "MEAN"; "MEDIAN"; "STD"])%string ->
  exists there v, selected (belongs b) d there /\
    (if from_xr then scalar_value_xr root agg name b d else scalar_value_df root agg name b d) = Ok [(name, v)] /\
    asked_for from_xr root agg (map (fun p => nth 0 (p_vals p) None) there) v.
Proof.
  intros from_xr root agg name b d L T I. destruct (PropsData.C16_trim_half_open b d L T) as (S1 & S2).
  destruct (C103_exact from_xr root agg (map (fun p => nth 0 (p_vals p) None) (if from_xr then xr_trim_rows b d else df_trim b d)) I) as (v & E & H).
  exists (if from_xr then xr_trim_rows b d else df_trim b d), v. split; [destruct from_xr; assumption|]. split; [|exact H].
  destruct from_xr; [unfold scalar_value_xr|unfold scalar_value_df]; unfold column; rewrite E; reflexivity.
Qed.
Print Assumptions C103_region.
(** The same values have another standard deviation as a Dataset than as a DataFrame, where
    one value alone has none. *)
Theorem C103_std_refuted : forall root, (forall x, x == 0 -> root x = 0) -> exists l, value_xr root "STD" true l = Ok (Some 0) /\ value_df root "STD" true l = Ok None.
Proof. intros root R. exists [Some 3]. split; [|reflexivity]. cbn. rewrite R by reflexivity. reflexivity. Qed.
Print Assumptions C103_std_refuted.

(** Blocks, with any values missing: each longitude first, then what came of them. *)
Theorem C61_steps : forall root m n ds, (0 < m)%Z -> (0 < n)%Z -> (m, n) <> (1, 1)%Z ->
  (exists ds', downsample root "MEAN" (m, n) ds = Ok ds' /\ in_steps mean_of m n ds ds') /\
  (exists ds', downsample root "MEDIAN" (m, n) ds = Ok ds' /\ in_steps median_of m n ds ds') /\
  (exists ds', downsample root "STD" (m, n) ds = Ok ds' /\ in_steps (deviation_of root 0) m n ds ds').
Proof.
  intros root m n ds M N D. unfold downsample, downsample_xr. cbn [fst snd]. rewrite (not_unit m n D). split; [|split]; (apply steps_by; [exact M|exact N|]).
  - exact nan_agg_mean.
  - exact nan_agg_median.
  - exact (nan_agg_deviation root).
Qed.
Print Assumptions C61_steps.

(** A case: the median of 1, 2, 3 and 8, one value missing. *)
Example C103_case : value_df (fun q => q) "MEDIAN" true [Some 3; None; Some 1; Some 8; Some 2] = Ok (Some (5 # 2)) /\ median_of [Some 3; None; Some 1; Some 8; Some 2] (Some (5 # 2)) /\
  ~ median_of [Some 3; None; Some 1; Some 8; Some 2] (Some 3) /\
  (exists v, value_df (fun q => q) "STD" true [Some 1; None; Some 3] = Ok (Some v) /\ v == 2) /\ (exists v, value_xr (fun q => q) "STD" true [Some 1; None; Some 3] = Ok (Some v) /\ v == 1).
Proof.
  split; [reflexivity|]. split; [|split; [|split; eexists; split; reflexivity]].
  - destruct (C103_exact false (fun q => q) "MEDIAN"%string [Some 3; None; Some 1; Some 8; Some 2]) as (v & E & H); [cbn; tauto|]. injection E as <-.
    destruct H as [[X _]|[[X _]|[[X _]|[[_ H]|[[X _]|[X _]]]]]]; try discriminate X. exact H.
  - intros (s & P & S & k & [[L _]|(a & b & (L & Ha & Hb) & E)]); assert (Ls := Permutation_length P); cbn in Ls; rewrite Ls in L; [lia|].
    assert (k = 1)%nat as -> by lia. destruct s as [|x [|y [|z [|w [|]]]]]; try discriminate Ls. cbn in Ha, Hb. injection Ha as <-. injection Hb as <-.
    inversion S as [|? ? S1 F1]; subst. inversion S1 as [|? ? S2 F2]; subst. inversion S2 as [|? ? S3 F3]; subst. inversion F1; inversion F2; inversion F3; subst.
    repeat match goal with H : Forall _ _ |- _ => inversion H; subst; clear H end.
    assert (I : forall q, In q [x; y; z; w] <-> In q [3; 1; 8; 2]) by (intros q; split; intros H; [apply (Permutation_in _ P H)|apply (Permutation_in _ (Permutation_sym P) H)]).
    assert (T : x + y + z + w == 14).
    { assert (Q : qsum [x; y; z; w] == qsum [3; 1; 8; 2]) by (apply qsum_perm; exact P). cbn in Q. lra. }
    assert (I1 := proj2 (I 1) ltac:(cbn; tauto)). assert (I8 := proj2 (I 8) ltac:(cbn; tauto)). cbn in I1, I8.
    assert (Ix := proj1 (I x) ltac:(cbn; tauto)). assert (Iw := proj1 (I w) ltac:(cbn; tauto)). cbn in Ix, Iw.
    assert (X : x <= 1) by (destruct I1 as [->|[->|[->|[->|[]]]]]; lra). assert (W : 8 <= w) by (destruct I8 as [->|[->|[->|[->|[]]]]]; lra).
    assert (X' : 1 <= x) by (destruct Ix as [<-|[<-|[<-|[<-|[]]]]]; lra). assert (W' : w <= 8) by (destruct Iw as [<-|[<-|[<-|[<-|[]]]]]; lra). lra.
Qed.
