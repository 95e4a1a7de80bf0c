(** Property theorem C18 for vectors.  Statements only; the proofs are in
    VecHomProofs.v. *)
From Verif Require Import Base Geo Cell Loaders Spec MeshSpec DataSpec VecAggSpec VecHomSpec VecHomProofs.
Open Scope Q_scope.

(** C18.  A vector source decides by the fraction, of the points in the bounds whose
    vector is known, that lie farther than the threshold from the mean vector. *)
Theorem C18_vector : forall min_dp whole b c d n m known_pts far_pts, long_min b < long_max b -> times_ok (time_range b) ->
  selected (belongs b) whole d -> (forall p, In p d -> List.length (p_vals p) = n) -> mean_vector d n m ->
  selected (fun p => exists v, vector_is p v) d known_pts -> selected (far (c_threshold c) m) d far_pts ->
  let f := qlen far_pts / qlen known_pts in
  ((Z.of_nat (List.length d) < min_dp)%Z \/ known_pts = [] -> vector_hom_dmag min_dp whole b c = CLR) /\
  ((min_dp <= Z.of_nat (List.length d))%Z -> known_pts <> [] ->
   (f <= c_lower c -> vector_hom_dmag min_dp whole b c = CLR) /\
   (c_lower c < f -> c_upper c <= f -> vector_hom_dmag min_dp whole b c = if c_lock c then HOM else CLR) /\
   (c_lower c < f -> f < c_upper c -> vector_hom_dmag min_dp whole b c = HET)).
Proof. exact vector_hom. Qed.
Print Assumptions C18_vector.

(** A case: of three known vectors with the mean (0, 0) one is farther than 1 from it; a
    point without a known vector counts for the minimum of points only. *)
Definition vh_bounds : boundary := mkB 0 9 0 9 [].
Definition vh_points : data :=
  [mkP 1 1 None [Some 0; Some 2]; mkP 2 1 None [Some 1; Some (-1)]; mkP 3 1 None [Some (-1); Some (-1)]; mkP 3 2 None [None; Some 0]].
Example C18_vector_case : exists d m known_pts far_pts,
  selected (belongs vh_bounds) vh_points d /\ (forall p, In p d -> List.length (p_vals p) = 2%nat) /\ mean_vector d 2 m /\
  selected (fun p => exists v, vector_is p v) d known_pts /\ selected (far 2 [0; 0]) d far_pts /\ selected (far (3#2) [0; 0]) d [hd (mkP 0 0 None []) d] /\
  m = [0; 0] /\ List.length known_pts = 3%nat /\ far_pts = [] /\
  vector_hom_dmag 4 vh_points vh_bounds (mkCond 2 (1#10) (9#10) false) = CLR /\
  vector_hom_dmag 4 vh_points vh_bounds (mkCond (3#2) (1#10) (9#10) false) = HET /\
  vector_hom_dmag 5 vh_points vh_bounds (mkCond (3#2) (1#10) (9#10) false) = CLR.
Proof.
  exists vh_points, [0; 0], (firstn 3 vh_points), [].
  split; [unfold vh_points; repeat (apply sel_take; [unfold belongs, mem; cbn; repeat split; lra|]); constructor|].
  split; [intros p H; cbn in H; intuition; subst; reflexivity|].
  split; [split; [reflexivity|]; intros [|[|i]] q H; cbn in H; try (destruct i; discriminate); injection H as <-; vm_compute; reflexivity|].
  assert (V : forall a b x y z, vector_is (mkP a b z [Some x; Some y]) [x; y]) by reflexivity.
  assert (F : forall t a b x y z, 0 <= t -> far t [0; 0] (mkP a b z [Some x; Some y]) <-> t * t < x * x + y * y).
  { intros t a b x y z T. split.
    - intros (v & E & [H|H]); [lra|]. unfold vector_is in E. cbn in E. destruct v as [|x' [|y' [|w v]]]; try discriminate. injection E as <- <-. cbn in H. lra.
    - intros H. exists [x; y]. split; [apply V|]. right. cbn. lra. }
  assert (N : forall a b o z, ~ exists v, vector_is (mkP a b z [None; o]) v) by (intros a b o z (v & E); destruct v; discriminate).
  split; [unfold vh_points; cbn [firstn]; repeat (apply sel_take; [eexists; apply V|]); apply sel_skip; [apply N|constructor]|].
  assert (Nf : forall t a b o z, ~ far t [0; 0] (mkP a b z [None; o])) by (intros t a b o z (v & E & _); apply (N a b o z); eauto).
  split; [|split].
  - unfold vh_points. repeat (apply sel_skip; [first [apply Nf|rewrite F by lra; lra]|]). constructor.
  - unfold vh_points. cbn [hd]. apply sel_take; [rewrite F by lra; lra|]. repeat (apply sel_skip; [first [apply Nf|rewrite F by lra; lra]|]). constructor.
  - vm_compute. repeat split; reflexivity.
Qed.
