(** Model of the colour table of EnvironmentMesh.to_tif: [set_colour]
    (environment_mesh.py 1342-1366) up to the text handed to gdaldem.  No proofs
    here.

    Simplifications: the arithmetic on float32 values is exact; infinities are not
    modelled (int(inf) raises OverflowError). *)
From Coq Require Import String.
From Verif Require Import Base.
Open Scope Z_scope.

(** [int(x)]: towards zero *)
Definition py_int (q : Q) : Z := Z.quot (Qnum q) (Zpos (Qden q)).
(** [np.nanmax], [np.nanmin] of an array without NaN; of an empty one: ValueError *)
Definition maximum (l : list Q) : res Q :=
  match l with [] => Err ValueError | q :: l => Ok (fold_left (fun m x => if qltb m x then x else m) l q) end.
Definition minimum (l : list Q) : res Q :=
  match l with [] => Err ValueError | q :: l => Ok (fold_left (fun m x => if qltb x m then x else m) l q) end.
Fixpoint not_nan (l : list (option Q)) : list Q :=
  match l with [] => [] | Some q :: l => q :: not_nan l | None :: l => not_nan l end.

Definition colours : list string := ["255 255 255"; "173 216 230"; "0 0 128"; "0 0 139"]%string.
(** 1354-1364: threshold ([None] is nan) and colour of each line *)
Definition colour_table (data : list (option Q)) : res (list (option Z * string)) :=
  let data := not_nan data in
  mx <- maximum data ;;
  mn <- minimum data ;;
  let range := (mx - mn)%Q in
  let n := inject_Z (Z.of_nat (List.length colours)) in
  Ok (map (fun ic => (Some (py_int (mn + inject_Z (Z.of_nat (fst ic) + 1) * range / n)), snd ic))
          (combine (seq 0 (List.length colours - 1)) (removelast colours))
      ++ [(Some (py_int (mx - range / n)), last colours ""%string); (None, "255 0 0"%string)])%list.
