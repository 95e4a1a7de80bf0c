(** IEEE 754 binary64 arithmetic (the standard library's SpecFloat), for the parts
    of the code whose behaviour depends on rounding.  No proofs here.

    Python's float and numpy's float64 operations + - * / and comparisons are
    these operations (round to nearest, ties to even). *)
From Coq Require Import Floats.SpecFloat Qround.
From Verif Require Import Base.
Open Scope Z_scope.

Definition f64 := spec_float.
Definition fadd : f64 -> f64 -> f64 := SFadd 53 1024.
Definition fsub : f64 -> f64 -> f64 := SFsub 53 1024.
Definition fmul : f64 -> f64 -> f64 := SFmul 53 1024.
Definition fdiv : f64 -> f64 -> f64 := SFdiv 53 1024.
Definition fabs : f64 -> f64 := SFabs.
Definition fneg : f64 -> f64 := SFopp.
Definition flt : f64 -> f64 -> bool := SFltb.
Definition fle : f64 -> f64 -> bool := SFleb.
Definition feq : f64 -> f64 -> bool := SFeqb.
(** m * 2^e, rounded *)
Definition fnum (m e : Z) : f64 := binary_normalize 53 1024 m e false.
Definition fint (m : Z) : f64 := fnum m 0.
(** the exact value of a finite number *)
Definition dyadic (m e : Z) : Q := if e <? 0 then (m # Z.to_pos (2 ^ (- e)))%Q else inject_Z (m * 2 ^ e).
Definition fval (x : f64) : option Q :=
  match x with
  | S754_zero _ => Some 0%Q
  | S754_finite s m e => Some (dyadic (if s then Zneg m else Zpos m) e)
  | _ => None
  end.
(** the double [x] is the number [q] *)
Definition means (x : f64) (q : Q) : Prop := exists v, fval x = Some v /\ (v == q)%Q.
