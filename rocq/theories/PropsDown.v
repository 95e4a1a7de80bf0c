(** Property theorem C61: downsampling.  Statements only. *)
From Verif Require Import Base QLib Geo Cell Loaders AggProofs Downsample DownSpec DownProofs.
Open Scope Q_scope.

(** C61.  Least and greatest values of the blocks, for any positive factors. *)
Theorem C61_extremes : forall sqrt m n ds, (0 < m)%Z -> (0 < n)%Z -> (m, n) <> (1, 1)%Z ->
  (exists ds', downsample sqrt "MIN" (m, n) ds = Ok ds' /\ downsampled least m n ds ds') /\
  (exists ds', downsample sqrt "MAX" (m, n) ds = Ok ds' /\ downsampled greatest m n ds ds').
Proof.
  intros sqrt m n ds M N D. unfold downsample, downsample_xr. cbn [fst snd]. rewrite (not_unit m n D). split.
  - apply (downsampled_by least qmin_list m n ds M N). intros. apply (least_blocks (fun a => map (h a) bl)).
  - apply (downsampled_by greatest qmax_list m n ds M N). intros. apply (greatest_blocks (fun a => map (h a) bl)).
Qed.
Print Assumptions C61_extremes.
(** Means are exact where no value is missing, and always between values of the block;
    so are medians. *)
Theorem C61_mean_partial : forall sqrt m n ds, (0 < m)%Z -> (0 < n)%Z -> (m, n) <> (1, 1)%Z ->
  exists ds', downsample sqrt "MEAN" (m, n) ds = Ok ds' /\ downsampled within_values m n ds ds' /\
    downsampled (fun l v => ~ In None l -> mean_of l v) m n ds ds'.
Proof.
  intros sqrt m n ds M N D. unfold downsample, downsample_xr. cbn [fst snd]. rewrite (not_unit m n D).
  destruct (downsampled_by (fun l v => within_values l v /\ (~ In None l -> mean_of l v)) qmean m n ds M N) as (ds' & E & H1 & H2 & H3 & H4).
  - intros bl bo h Nl No _. split; [apply (within_blocks qmean (fun a => map (h a) bl)); intros l lo hi; apply qmean_bounds|].
    intros K. apply mean_blocks; auto. intros a b Ia Ib X. apply K. apply in_flat_map. exists a. split; [exact Ia|]. apply in_map_iff. eauto.
  - exists ds'. split; [exact E|]. split; (split; [exact H1|split; [exact H2|split; [exact H3|]]]); intros; eapply H4; eassumption.
Qed.
Print Assumptions C61_mean_partial.
Theorem C61_median_partial : forall sqrt m n ds, (0 < m)%Z -> (0 < n)%Z -> (m, n) <> (1, 1)%Z ->
  exists ds', downsample sqrt "MEDIAN" (m, n) ds = Ok ds' /\ downsampled within_values m n ds ds'.
Proof.
  intros sqrt m n ds M N D. unfold downsample, downsample_xr. cbn [fst snd]. rewrite (not_unit m n D).
  apply (downsampled_by within_values qmedian m n ds M N). intros. apply (within_blocks qmedian (fun a => map (h a) bl)). intros l lo hi; apply qmedian_bounds.
Qed.
Print Assumptions C61_median_partial.
(** The blocks hold every entry of an axis once, in order. *)
Theorem C61_blocks : forall A n (l : list A), (0 < n)%nat -> exists bs, List.concat bs = l /\
  forall I b, nth_error bs I = Some b -> is_block n I l b /\ b <> [].
Proof.
  intros A n l N. exists (chunks n l). split; [apply concat_chunks; exact N|]. intros I b H. rewrite chunks_nth in H by exact N.
  destruct (Nat.ltb_spec (I * n) (List.length l)); [|discriminate]. injection H as <-. split; [apply is_block_iff; reflexivity|apply block_nonempty; assumption].
Qed.
Print Assumptions C61_blocks.
(** Nothing changes for factors of 1; factors that are not positive are rejected. *)
Theorem C61_factors : forall sqrt agg ds m n, downsample sqrt agg (1, 1)%Z ds = Ok ds /\
  (In agg ["MIN"; "MAX"; "MEAN"; "MEDIAN"; "STD"; "COUNT"]%string -> (m <= 0)%Z \/ (n <= 0)%Z -> downsample sqrt agg (m, n) ds = Err ValueError).
Proof.
  intros sqrt agg ds m n. split; [reflexivity|]. intros I H. unfold downsample, downsample_xr. cbn [fst snd].
  rewrite not_unit by (intros E; injection E; lia).
  repeat destruct I as [<-|I]; try (destruct I; fail); cbn [String.eqb Ascii.eqb Bool.eqb];
    unfold coarsen_lat, coarsen_long, thin_lat, thin_long; destruct (Z.leb_spec n 0); cbn [bind]; try reflexivity; destruct (Z.leb_spec m 0); try reflexivity; lia.
Qed.
Print Assumptions C61_factors.

Definition gx (rows : list (list (option Q))) : xrds :=
  mkXr (map (fun i => (inject_Z (Z.of_nat i), i)) (seq 0 (List.length rows))) (map (fun i => (inject_Z (Z.of_nat i), i)) (seq 0 (List.length (hd [] rows)))) None
       (fun i j _ => [nth j (nth i rows []) None]).
Definition values (ds : xrds) : list (list (option Q)) :=
  map (fun la => map (fun lo => option_map Qred (nth 0 (x_val ds (snd la) (snd lo) 0%nat) None)) (x_long ds)) (x_lat ds).
Definition value_at (r : res xrds) : res (list (list (option Q))) := match r with Ok d => Ok (values d) | Err e => Err e end.
Example C61_case : forall sqrt,
  value_at (downsample sqrt "MAX" (2, 2)%Z (gx [[Some 1; Some 5; Some 2]; [Some 3; None; None]; [None; None; Some 7]])) = Ok [[Some 5; Some 2]; [None; Some 7]] /\
  value_at (downsample sqrt "MEAN" (2, 2)%Z (gx [[Some 1; Some 5]; [Some 3; Some 7]])) = Ok [[Some 4]].
Proof. intros. split; vm_compute; reflexivity. Qed.

(** Findings.  A mean over a block with a missing value weighs the columns equally. *)
Theorem C61_mean_refuted : forall sqrt, exists ds v, value_at (downsample sqrt "MEAN" (2, 2)%Z ds) = Ok [[v]] /\
  ~ mean_of (block_values ds 0 0 (x_lat ds) (x_long ds)) v.
Proof.
  intros sqrt. exists (gx [[Some 0; Some 8]; [Some 4; None]]), (Some 5). split; [vm_compute; reflexivity|]. cbn. intros [_ H]. lra.
Qed.
Print Assumptions C61_mean_refuted.
(** A median of medians is not the median. *)
Theorem C61_median_refuted : forall sqrt, exists ds v, value_at (downsample sqrt "MEDIAN" (3, 3)%Z ds) = Ok [[Some v]] /\
  ~ In None (block_values ds 0 0 (x_lat ds) (x_long ds)) /\ ~ v == qmedian (drop_nan (block_values ds 0 0 (x_lat ds) (x_long ds))).
Proof.
  intros sqrt. exists (gx [[Some 1; Some 2; Some 7]; [Some 3; Some 4; Some 8]; [Some 5; Some 6; Some 9]]), 4. split; [vm_compute; reflexivity|].
  split; [cbn; intuition discriminate|]. vm_compute. discriminate.
Qed.
Print Assumptions C61_median_refuted.
(** The standard deviation of standard deviations: downsampling longitudes only gives 0
    everywhere. *)
Theorem C61_std_refuted : forall sqrt, (forall x, x == 0 -> sqrt x = 0) -> exists ds, value_at (downsample sqrt "STD" (2, 1)%Z ds) = Ok [[Some 0]] /\
  ~ sq_dev (drop_nan (block_values ds 0 0 (x_lat ds) (x_long ds))) / 2 == 0.
Proof.
  intros sqrt S. exists (gx [[Some 0; Some 8]]). split; [|vm_compute; discriminate].
  set (g := fun l : list Q => sqrt (sq_dev l / qlen l)).
  transitivity (Ok [[Some (Qred (g [g [0]; g [8]]))]]); [reflexivity|].
  assert (E0 : g [0] = 0) by (apply S; reflexivity). assert (E8 : g [8] = 0) by (apply S; reflexivity). rewrite E0, E8.
  assert (E : g [0; 0] = 0) by (apply S; reflexivity). rewrite E. reflexivity.
Qed.
Print Assumptions C61_std_refuted.
(** COUNT keeps the first entry of each block. *)
Theorem C61_count_refuted : forall sqrt, exists ds, value_at (downsample sqrt "COUNT" (2, 2)%Z ds) = Ok [[Some 7]] /\
  number (block_values ds 0 0 (x_lat ds) (x_long ds)) == 4.
Proof. intros sqrt. exists (gx [[Some 7; Some 1]; [Some 2; Some 3]]). split; vm_compute; reflexivity. Qed.
Print Assumptions C61_count_refuted.
(** Other aggregation types, such as RMSE, and DataFrames are not downsampled at all. *)
Theorem C61_ignored_refuted : forall sqrt, exists ds, downsample sqrt "RMSE" (2, 2)%Z ds = Ok ds /\ List.length (x_lat ds) = 2%nat /\
  forall agg d, downsample_df agg (2, 2)%Z d = d.
Proof. intros sqrt. exists (gx [[Some 7; Some 1]; [Some 2; Some 3]]). split; [reflexivity|]. split; reflexivity. Qed.
Print Assumptions C61_ignored_refuted.
