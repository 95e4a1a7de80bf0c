(** Property theorem C70: aggregated vectors.  Statements only. *)
From Verif Require Import Base QLib Geo Cell Loaders Builder AddLoader Spec MeshSpec DataSpec TrimProofs VecAgg VecAggSpec VecAggProofs.
Open Scope Q_scope.

Definition vector_values (from_xr : bool) := if from_xr then vector_values_xr else vector_values_df.

(** C70.  MIN (MAX) is the vector of the first of the rows with the shortest (longest)
    known vector. *)
Theorem C70_extremes : forall (from_xr : bool) sqrt n d, (forall p, In p d -> List.length (p_vals p) = n) -> (exists p, In p d /\ complete p) ->
  (exists p, vector_values from_xr sqrt "MIN" n d = Ok (p_vals p) /\ first_extreme shorter d p) /\
  (exists p, vector_values from_xr sqrt "MAX" n d = Ok (p_vals p) /\ first_extreme longer d p).
Proof.
  intros x sqrt n d W H. destruct (some_complete d H) as (A & B).
  destruct (shorter_ok d H) as (p & m & E & _ & F). destruct (longer_ok d H) as (q & m' & E' & _ & F'). split.
  - exists p. split; [|exact F]. destruct x; cbn [vector_values]; unfold vector_values_xr, vector_values_df; rewrite ?A, B; cbn [String.eqb Ascii.eqb Bool.eqb]; rewrite E;
      rewrite <- (W p (first_in _ _ _ F)), nth_all; reflexivity.
  - exists q. split; [|exact F']. destruct x; cbn [vector_values]; unfold vector_values_xr, vector_values_df; rewrite ?A, B; cbn [String.eqb Ascii.eqb Bool.eqb]; rewrite E';
      rewrite <- (W q (first_in _ _ _ F')), nth_all; reflexivity.
Qed.
Print Assumptions C70_extremes.
(** Without any known vector they are unknown. *)
Theorem C70_none : forall (from_xr : bool) sqrt n d agg, In agg ["MIN"; "MAX"]%string -> (forall p, In p d -> ~ complete p) ->
  vector_values from_xr sqrt agg n d = Ok (repeat None n).
Proof.
  intros x sqrt n d agg G H.
  assert (R : map (fun _ : nat => @None Q) (seq 0 n) = repeat None n) by (generalize 0%nat; induction n as [|n IH]; intros k; [reflexivity|cbn; f_equal; apply IH]).
  assert (N := proj2 (all_nan_mag d) H). destruct x; cbn [vector_values].
  - unfold vector_values_xr. rewrite N, R. destruct (Nat.eqb _ 0); reflexivity.
  - unfold vector_values_df. destruct G as [<-|[<-|[]]]; cbn [String.eqb Ascii.eqb Bool.eqb]; rewrite (arg_none _ d H), R; destruct (Nat.eqb _ 0); reflexivity.
Qed.
Print Assumptions C70_none.
(** MEAN: each component is the mean of its known values.  (For a Dataset, if some vector
    is known in whole.) *)
Theorem C70_mean_partial : forall (from_xr : bool) sqrt n d, d <> [] -> (from_xr = true -> exists p, In p d /\ complete p) ->
  exists vs, vector_values from_xr sqrt "MEAN" n d = Ok vs /\ List.length vs = n /\
    forall i, (i < n)%nat -> match nth i vs None with
      | Some m => (0 < known (column i d))%Z /\ m * inject_Z (known (column i d)) == total (column i d)
      | None => known (column i d) = 0%Z
      end.
Proof.
  intros x sqrt n d N H.
  assert (L : Nat.eqb (List.length d) 0 = false) by (destruct d; [contradiction|reflexivity]).
  exists (map (fun i => match drop_nan (column i d) with [] => None | l => Some (qmean l) end) (seq 0 n)). split; [|split].
  - destruct x; cbn [vector_values]; unfold vector_values_xr, vector_values_df; rewrite L; [rewrite (proj1 (some_complete d (H eq_refl)))|]; cbn [String.eqb Ascii.eqb Bool.eqb]; f_equal;
      apply map_ext; intros i; destruct (drop_nan (column i d)); reflexivity.
  - rewrite map_length, seq_length. reflexivity.
  - intros i I. rewrite nth_cols by exact I. destruct (drop_nan (column i d)) as [|y l] eqn:E.
    + apply known_zero. exact E.
    + rewrite <- E. apply mean_total; [rewrite E; discriminate|reflexivity].
Qed.
Print Assumptions C70_mean_partial.
(** STD: the root of the sum of the squared deviations from the mean over the number of
    values (Datasets) or one less (DataFrames; unknown for one value). *)
Theorem C70_std_partial : forall (from_xr : bool) sqrt n d, d <> [] -> (from_xr = true -> exists p, In p d /\ complete p) ->
  exists vs, vector_values from_xr sqrt "STD" n d = Ok vs /\ List.length vs = n /\
    forall i, (i < n)%nat -> let k := known (column i d) in let k' := if from_xr then k else (k - 1)%Z in
      if (k' <=? 0)%Z then nth i vs None = None
      else exists v, nth i vs None = Some (sqrt v) /\ forall m, m * inject_Z k == total (column i d) -> v * inject_Z k' == deviation m (column i d).
Proof.
  intros x sqrt n d N H.
  assert (L : Nat.eqb (List.length d) 0 = false) by (destruct d; [contradiction|reflexivity]).
  assert (G : forall z, (0 < z)%Z -> 0 < inject_Z z) by (intros z Z; unfold Qlt; cbn; lia).
  assert (X : forall a b, 0 < b -> a / b * b == a) by (intros a b P; rewrite Qmult_comm; apply Qmult_div_r; lra).
  destruct x; cbn [vector_values]; unfold vector_values_xr, vector_values_df; rewrite L; [rewrite (proj1 (some_complete d (H eq_refl)))|]; cbn [String.eqb Ascii.eqb Bool.eqb];
    (eexists; split; [reflexivity|]; split; [rewrite map_length, seq_length; reflexivity|]; intros i I; cbn zeta; rewrite nth_cols by exact I); destruct (Z.leb_spec 0 0); try lia.
  - destruct (Z.leb_spec (known (column i d)) 0) as [Z|Z].
    + assert (E : drop_nan (column i d) = []) by (apply known_zero; rewrite <- known_drop in *; lia). rewrite E. reflexivity.
    + destruct (drop_nan (column i d)) as [|y l] eqn:E; [apply known_zero in E; lia|]. eexists. split; [reflexivity|]. intros m M. unfold qlen. rewrite <- E, known_drop.
      rewrite X by (apply G; exact Z). apply sq_dev_deviation; [rewrite E; discriminate|exact M].
  - destruct (Z.leb_spec (known (column i d) - 1) 0) as [Z|Z]; rewrite <- known_drop in Z.
    + destruct (Nat.leb_spec (List.length (drop_nan (column i d))) 1); [reflexivity|lia].
    + destruct (Nat.leb_spec (List.length (drop_nan (column i d))) 1); [lia|]. eexists. split; [reflexivity|]. intros m M. unfold qlen. rewrite known_drop in Z |- *.
      assert (Y : inject_Z (known (column i d)) - 1 == inject_Z (known (column i d) - 1)) by (unfold Z.sub; rewrite inject_Z_plus; reflexivity).
      rewrite Y, X by (apply G; exact Z). apply sq_dev_deviation; [|exact M]. intros E. apply known_zero in E. lia.
Qed.
Print Assumptions C70_std_partial.
(** COUNT: the number of rows. *)
Theorem C70_count_partial : forall (from_xr : bool) sqrt n d, d <> [] -> (from_xr = true -> exists p, In p d /\ complete p) ->
  vector_values from_xr sqrt "COUNT" n d = Ok (map (fun _ => Some (inject_Z (Z.of_nat (List.length d)))) (seq 0 n)).
Proof.
  intros x sqrt n d N H. assert (L : Nat.eqb (List.length d) 0 = false) by (destruct d; [contradiction|reflexivity]).
  destruct x; cbn [vector_values]; unfold vector_values_xr, vector_values_df; rewrite L; [rewrite (proj1 (some_complete d (H eq_refl)))|]; reflexivity.
Qed.
Print Assumptions C70_count_partial.
(** DataFrames and Datasets agree, but for STD. *)
Theorem C70_agree : forall sqrt n d agg, agg <> "STD"%string -> (exists p, In p d /\ complete p) -> vector_values_df sqrt agg n d = vector_values_xr sqrt agg n d.
Proof.
  intros sqrt n d agg G H. destruct (some_complete d H) as (A & B). unfold vector_values_xr, vector_values_df. rewrite A, B. apply String.eqb_neq in G. rewrite G. reflexivity.
Qed.
Print Assumptions C70_agree.
(** A single csv file: its rows have distinct labels. *)
Theorem C70_one_file : forall sqrt agg n b d, vector_values_frame sqrt agg n (frame_trim b (concat_csv [d])) = vector_values_df sqrt agg n (df_trim b d).
Proof.
  intros sqrt agg n b d. unfold concat_csv. cbn [flat_map]. rewrite app_nil_r. destruct (read_labels d) as (A & B).
  rewrite frame_df; [rewrite trim_rows, B; reflexivity|]. apply trim_labels. rewrite A. apply seq_NoDup.
Qed.
Print Assumptions C70_one_file.
(** The magnitudes of a Dataset are those of its vectors, if the Dataset lists its
    dimensions in the order of its variables. *)
Theorem C70_magnitude_partial : forall A dims sizes (a : list nat -> A), relabel dims dims sizes a = Ok (fun at_ => a (map at_ dims)).
Proof.
  intros A dims sizes a. unfold relabel. rewrite Nat.eqb_refl. cbn [negb].
  assert (F : forallb (fun xy : string * string => Nat.eqb (sizes (fst xy)) (sizes (snd xy))) (combine dims dims) = true); [|rewrite F; reflexivity].
  induction dims as [|x l IH]; [reflexivity|]. cbn. rewrite Nat.eqb_refl. exact IH.
Qed.
Print Assumptions C70_magnitude_partial.

(** A case: three vectors, one of them half unknown. *)
Definition vg : data := [mkP 0 0 None [Some 3; Some 4]; mkP 0 0 None [Some 0; None]; mkP 0 0 None [Some 1; Some 2]].
Example C70_case : (forall p, In p vg -> List.length (p_vals p) = 2%nat) /\ (exists p, In p vg /\ complete p) /\
  vector_values_xr (fun x => x) "MIN" 2 vg = Ok [Some 1; Some 2] /\ vector_values_df (fun x => x) "MAX" 2 vg = Ok [Some 3; Some 4].
Proof.
  split; [intros p [<-|[<-|[<-|[]]]]; reflexivity|]. split; [eexists; split; [left; reflexivity|]; intros [X|[X|[]]]; discriminate|]. split; reflexivity.
Qed.

(** Findings.  The label of the extreme row is in several of the files: ValueError. *)
Theorem C70_files_refuted : forall sqrt agg n (d : frame), agg = "MIN"%string \/ agg = "MAX"%string -> (exists p, In p (rows d) /\ complete p) ->
  (forall k p, In (k, p) d -> (2 <= List.length (filter (fun r => Nat.eqb (fst r) k) d))%nat) -> vector_values_frame sqrt agg n d = Err ValueError.
Proof. exact frame_repeated. Qed.
Print Assumptions C70_files_refuted.
Definition vg_region : boundary := mkB 0 10 0 10 [].
Example C70_files_case : vector_values_frame (fun x => x) "MAX" 2
  (frame_trim vg_region (concat_csv [[mkP 1 1 None [Some 1; Some 2]]; [mkP 2 2 None [Some 3; Some 4]; mkP 30 2 None [Some 5; Some 6]]])) = Err ValueError.
Proof. reflexivity. Qed.
(** The mean vector is made of components of different points. *)
Theorem C70_mean_refuted : forall (from_xr : bool) sqrt, let d := [mkP 0 0 None [Some 1; Some 1]; mkP 0 0 None [Some 3; None]] in
  exists a b, vector_values from_xr sqrt "MEAN" 2 d = Ok [Some a; Some b] /\ a == 2 /\ b == 1 /\ forall p, In p d -> complete p -> p_vals p = [Some 1; Some 1].
Proof.
  intros x sqrt d. exists (qmean [1; 3]), (qmean [1]). split; [destruct x; reflexivity|]. split; [reflexivity|]. split; [reflexivity|].
  intros p [<-|[<-|[]]] C; [reflexivity|]. exfalso. apply C. right; left; reflexivity.
Qed.
Print Assumptions C70_mean_refuted.
(** Where no vector is known in whole, Datasets have no mean. *)
Theorem C70_agree_refuted : forall sqrt, let d := [mkP 0 0 None [Some 3; None]] in
  vector_values_df sqrt "MEAN" 2 d <> vector_values_xr sqrt "MEAN" 2 d /\ vector_values_xr sqrt "MEAN" 2 d = Ok [None; None] /\
  exists d', (forall p, In p d' -> complete p) /\ vector_values_df (fun x => x) "STD" 2 d' <> vector_values_xr (fun x => x) "STD" 2 d'.
Proof.
  intros sqrt d. split; [cbv; discriminate|]. split; [reflexivity|]. exists [mkP 0 0 None [Some 3; Some 1]].
  split; [intros p [<-|[]] [C|[C|[]]]; discriminate|]. cbv. discriminate.
Qed.
Print Assumptions C70_agree_refuted.
(** COUNT counts unknown vectors, and is unknown where there are no points; with [skipna]
    it includes NaN and without it does not. *)
Theorem C70_count_refuted : forall (from_xr : bool) sqrt, vector_values from_xr sqrt "COUNT" 2 vg = Ok [Some 3; Some 3] /\ vector_values from_xr sqrt "COUNT" 2 [] = Ok [None; None] /\
  vector_count_xr true 2 vg = [3; 3] /\ vector_count_xr false 2 vg = [3; 2].
Proof. intros x sqrt. destruct x; repeat split. Qed.
Print Assumptions C70_count_refuted.
(** If the Dataset lists its dimensions in another order, the magnitudes are those of other
    points, or ValueError is raised. *)
Theorem C70_magnitude_refuted :
  (exists g at_, relabel ["lat"; "long"]%string ["long"; "lat"]%string (fun _ => 2%nat) (fun i => i) = Ok g /\ g at_ <> map at_ ["lat"; "long"]%string) /\
  relabel ["lat"; "long"]%string ["long"; "lat"]%string (fun x => if String.eqb x "lat"%string then 2%nat else 3%nat) (fun i => i) = Err ValueError.
Proof.
  split; [|reflexivity]. eexists. exists (fun x => if String.eqb x "lat"%string then 0%nat else 1%nat). split; [reflexivity|]. cbv. discriminate.
Qed.
Print Assumptions C70_magnitude_refuted.
