(** Specification of the GeoJSON export. *)
From Coq Require Import String.
From Verif Require Import Base Geo Cell Env Export.
Open Scope Z_scope.

Definition own_names : list string := ["geometry"; "cx"; "cy"; "dcx"; "dcy"; "id"]%string.
(** Data whose names appear once each and are not those of the geometry. *)
Definition plain (c : xcell) : Prop :=
  NoDup (map fst (x_data c)) /\ forall n, In n (map fst (x_data c)) -> ~ In n own_names.
(** The names exported: all, or the one asked for. *)
Definition carried (layer : option string) (cs : list xcell) (n : string) : Prop :=
  (exists c, In c cs /\ In n (map fst (x_data c))) /\ match layer with Some d => n = d | None => True end.

Fixpoint total (l : list Q) : Q := match l with [] => 0 | q :: l => q + total l end%Q.
(** What should stand for a value: numbers for themselves, a list for its mean, a
    flag for 1 if it is set, and nothing for everything without a finite value. *)
Inductive stands_for : option xval -> option Q -> Prop :=
| sf_missing : stands_for None None
| sf_num q : stands_for (Some (XNum (Fin q))) (Some q)
| sf_nan x : (forall q, x <> Fin q) -> stands_for (Some (XNum x)) None
| sf_set : stands_for (Some (XBool true)) (Some 1%Q)
| sf_unset : stands_for (Some (XBool false)) None
| sf_list qs m : qs <> [] -> (m * inject_Z (Z.of_nat (List.length qs)) == total qs)%Q ->
    stands_for (Some (XList (map Fin qs))) (Some m)
| sf_unknown l : l = [] \/ (exists x, In x l /\ forall q, x <> Fin q) -> stands_for (Some (XList l)) None.

(** Either no cell has the flag [n] unset, or every cell has a flag [n]. *)
Definition flags_agree (cs : list xcell) (n : string) : Prop :=
  (forall c, In c cs -> sget (x_data c) n <> Some (XBool false)) \/
  (forall c, In c cs -> exists b, sget (x_data c) n = Some (XBool b)).
(** The value can be averaged. *)
Definition numeric (v : option xval) : Prop :=
  match v with Some (XText _) | Some (XId _) | Some (XGeom _) => False | _ => True end.
