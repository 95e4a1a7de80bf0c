(** Concrete meshes with data, used to show that hypotheses are met. *)
From Verif Require Import Base Geo Graph Cell Loaders Builder Spec MeshSpec DataSpec QLib Examples.
Open Scope Z_scope.

Definition id_q (q : Q) : Q := q.
Definition pt (lat long v : Q) : point := mkP lat long None [Some v].
(** Two concentration sources under one name, the first with a splitting
    condition, and a depth source filled with 0; the first concentration source
    is missing in most cells. *)
Definition dx_sic : metadata :=
  mkMeta (scalar_df 1 "SIC" "MEAN" 1 id_q) [mkCond 5 (1#10) (9#10) false] FillParent
    [pt (2#10) (102#10) 10; pt (7#10) (107#10) 0; pt (8#10) (108#10) 1; pt (15#10) (125#10) 7].
Definition dx_sic2 : metadata :=
  mkMeta (scalar_df 3 "SIC" "MAX" 1 id_q) [] FillParent [pt (2#10) (102#10) 99; pt (12#10) (102#10) 55].
Definition dx_depth : metadata :=
  mkMeta (scalar_xr 2 "depth" "MIN" 1 id_q) [] (FillNum 0) [pt (2#10) (102#10) (-30); pt (3#10) (103#10) (-20)].
Definition dx_srcs : list metadata := [dx_sic; dx_depth; dx_sic2].

Definition dx_m0 : mesh := get_mesh (build_mesh ex_region 1 1 dx_srcs).
Lemma dx_built : build_mesh ex_region 1 1 dx_srcs = Ok dx_m0.
Proof. apply get_mesh_ok. vm_compute. reflexivity. Qed.
Lemma dx_reachable : reachable ex_region 1 1 dx_srcs dx_m0.
Proof. exists dx_m0. split; [exact dx_built|apply splits_none]. Qed.
Definition cell_at_pos (m : mesh) (i : nat) : cellbox :=
  match nth_error (cells m) i with Some (Some c) => c | _ => mkCell ex_region 0 0 [] None end.
Lemma cell_at_pos_ok m i : match nth_error (cells m) i with Some (Some _) => true | _ => false end = true ->
  live_cell m i (cell_at_pos m i).
Proof. unfold live_cell, cell_at_pos. destruct (nth_error (cells m) i) as [[c|]|]; [reflexivity|discriminate..]. Qed.
Lemma dx_live0 : live_cell dx_m0 0 (cell_at_pos dx_m0 0).
Proof. apply cell_at_pos_ok. vm_compute. reflexivity. Qed.
Lemma dx_scalar s : In s dx_srcs -> scalar_source s.
Proof.
  intros H. cbn in H. destruct H as [<-|[<-|[<-|[]]]]; (split; [|cbn; eauto]).
  - exists 1, "SIC"%string, "MEAN"%string, 1, id_q. split; [cbn; auto 10|left; reflexivity].
  - exists 2, "depth"%string, "MIN"%string, 1, id_q. split; [cbn; auto 10|right; reflexivity].
  - exists 3, "SIC"%string, "MAX"%string, 1, id_q. split; [cbn; auto 10|left; reflexivity].
Qed.
(** The mesh after splitting to depth 2. *)
Definition dx_m1 : mesh := get_mesh (split_to_depth 100 dx_m0 2).
Lemma dx_split : split_to_depth 100 dx_m0 2 = Ok dx_m1.
Proof. apply get_mesh_ok. vm_compute. reflexivity. Qed.
Definition depths (m : mesh) : list (option Z) := map (option_map cb_depth) (cells m).
