(** Concrete meshes used to show that the hypotheses of the theorems are met. *)
From Verif Require Import Base Geo Graph Cell Builder Spec MeshSpec QLib.
Open Scope Z_scope.

Definition get_mesh (r : res mesh) : mesh := match r with Ok m => m | Err _ => mkMesh [] [] false end.

Lemma get_mesh_ok r : match r with Ok _ => true | Err _ => false end = true -> r = Ok (get_mesh r).
Proof. destruct r; [reflexivity|discriminate]. Qed.

(** A 3 x 2 regional grid; cell 4 split, then its child 7 split, then cell 1. *)
Definition ex_region : boundary := mkB 0 2 10 13 [].
Definition ex_m0 : mesh := Eval vm_compute in get_mesh (build_mesh ex_region 1 1 []).
Definition ex_m1 : mesh := Eval vm_compute in get_mesh (split_and_replace ex_m0 4).
Definition ex_m2 : mesh := Eval vm_compute in get_mesh (split_and_replace ex_m1 7).
Definition ex_m3 : mesh := Eval vm_compute in get_mesh (split_and_replace ex_m2 1).

Lemma ex_admissible : admissible ex_region 1 1.
Proof.
  split; [split; [cbn; lra | left; reflexivity]|]. split; [lra|]. split; [lra|].
  intros [H _]. cbn in H. lra.
Qed.
Lemma ex_regional : ~ spans_globe ex_region.
Proof. intros [H _]. cbn in H. lra. Qed.
Lemma ex_built : build_mesh ex_region 1 1 [] = Ok ex_m0.
Proof. vm_compute. reflexivity. Qed.
Lemma ex_splits : splits ex_m0 ex_m3.
Proof.
  apply (splits_more _ ex_m2 _ 1); [|vm_compute; reflexivity].
  apply (splits_more _ ex_m1 _ 7); [|vm_compute; reflexivity].
  apply (splits_more _ ex_m0 _ 4); [|vm_compute; reflexivity]. apply splits_none.
Qed.
Lemma ex_reachable : reachable ex_region 1 1 [] ex_m3.
Proof. exists ex_m0. split; [exact ex_built | exact ex_splits]. Qed.

(** A 4 x 2 global grid; the cells at the western and eastern edge split. *)
Definition gx_region : boundary := mkB (-90) 90 (-180) 180 [].
Definition gx_m0 : mesh := Eval vm_compute in get_mesh (build_mesh gx_region 90 90 []).
Definition gx_m1 : mesh := Eval vm_compute in get_mesh (split_and_replace gx_m0 0).
Definition gx_m2 : mesh := Eval vm_compute in get_mesh (split_and_replace gx_m1 7).
Lemma gx_admissible : admissible gx_region 90 90.
Proof.
  split; [split; [cbn; lra | left; reflexivity]|]. split; [lra|]. split; [lra|].
  intros _. split; [exists 4; reflexivity | lra].
Qed.
Lemma gx_global : spans_globe gx_region.
Proof. split; reflexivity. Qed.
Lemma gx_built : build_mesh gx_region 90 90 [] = Ok gx_m0.
Proof. vm_compute. reflexivity. Qed.
Lemma gx_splits : splits gx_m0 gx_m2.
Proof.
  apply (splits_more _ gx_m1 _ 7); [|vm_compute; reflexivity].
  apply (splits_more _ gx_m0 _ 0); [|vm_compute; reflexivity]. apply splits_none.
Qed.
Lemma gx_reachable : reachable gx_region 90 90 [] gx_m2.
Proof. exists gx_m0. split; [exact gx_built | exact gx_splits]. Qed.

(** The neighbour lists computed for the western child of the split corner cell
    wrap around to the split cell at the eastern edge. *)
Example gx_wraps : get_neighbours (ng gx_m2) (KI 8) (KI north_west) = Ok [15].
Proof. vm_compute. reflexivity. Qed.
