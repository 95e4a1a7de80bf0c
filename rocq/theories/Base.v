(** Python building blocks used by the model: exceptions as values, lists,
    insertion-ordered dictionaries, exact rationals.  No proofs here. *)
From Coq Require Export ZArith QArith Qround List Bool Lia Lqa.
Export ListNotations.
Open Scope Z_scope.

(** Python exception classes that the modelled code raises or relies on. *)
Inductive exn :=
| KeyError | ValueError | IndexError | TypeError | AttributeError
| AssertionError | ZeroDivisionError | FileNotFoundError
| OverflowError | UnboundLocalError | NotImplementedError
| OSError | EOFError
| ValidationError       (* jsonschema *)
| PlainException        (* raise Exception(...) *)
| OutOfFuel.            (* not Python: the model's own fuel ran out *)

Inductive res (A : Type) := Ok (a : A) | Err (e : exn).
Arguments Ok {A} a.
Arguments Err {A} e.

Definition bind {A B} (r : res A) (f : A -> res B) : res B :=
  match r with Ok a => f a | Err e => Err e end.
Notation "x <- e1 ;; e2" := (bind e1 (fun x => e2))
  (at level 61, e1 at next level, right associativity).

(** [for x in l: s = f(s, x)], stopping at the first exception. *)
Fixpoint foldM {A S} (f : S -> A -> res S) (s : S) (l : list A) : res S :=
  match l with
  | [] => Ok s
  | x :: l' => s' <- f s x ;; foldM f s' l'
  end.

(** [[f(x) for x in l]], stopping at the first exception. *)
Fixpoint mapM {A B} (f : A -> res B) (l : list A) : res (list B) :=
  match l with
  | [] => Ok []
  | x :: l' => y <- f x ;; ys <- mapM f l' ;; Ok (y :: ys)
  end.

(** [list.remove(x)] on a list of ints: first occurrence, ValueError if absent. *)
Fixpoint lremove (x : Z) (l : list Z) : res (list Z) :=
  match l with
  | [] => Err ValueError
  | y :: l' => if Z.eqb x y then Ok l' else r <- lremove x l' ;; Ok (y :: r)
  end.

(** [l[i]] with Python's negative indices. *)
Definition py_nth {A} (l : list A) (i : Z) : res A :=
  let n := Z.of_nat (length l) in
  let j := if i <? 0 then i + n else i in
  if (j <? 0) then Err IndexError
  else match nth_error l (Z.to_nat j) with
       | Some a => Ok a
       | None => Err IndexError
       end.

(** [l[i] = v] for a non-negative in-range index (the only use in the code). *)
Fixpoint list_set {A} (l : list A) (i : nat) (v : A) : list A :=
  match l, i with
  | [], _ => []
  | _ :: l', O => v :: l'
  | x :: l', S i' => x :: list_set l' i' v
  end.

(** Dictionary keys of the neighbour graph: [KI z] is the int z, [KS z] is the
    string str(z). *)
Inductive pykey := KI (z : Z) | KS (z : Z).
Definition key_eqb (a b : pykey) : bool :=
  match a, b with
  | KI x, KI y => Z.eqb x y
  | KS x, KS y => Z.eqb x y
  | _, _ => false
  end.
(** [int(k)] *)
Definition key_int (k : pykey) : Z := match k with KI z => z | KS z => z end.

(** Insertion-ordered dictionaries. *)
Definition dict (V : Type) := list (pykey * V).

Fixpoint dget_opt {V} (d : dict V) (k : pykey) : option V :=
  match d with
  | [] => None
  | (k', v) :: d' => if key_eqb k k' then Some v else dget_opt d' k
  end.
(** [d[k]] *)
Definition dget {V} (d : dict V) (k : pykey) : res V :=
  match dget_opt d k with Some v => Ok v | None => Err KeyError end.
(** [d[k] = v]: in place when the key exists, at the end otherwise. *)
Fixpoint dset {V} (d : dict V) (k : pykey) (v : V) : dict V :=
  match d with
  | [] => [(k, v)]
  | (k', v') :: d' => if key_eqb k k' then (k', v) :: d' else (k', v') :: dset d' k v
  end.
(** [d.pop(k)] *)
Definition dpop {V} (d : dict V) (k : pykey) : res (dict V) :=
  match dget_opt d k with
  | None => Err KeyError
  | Some _ => Ok (filter (fun kv => negb (key_eqb k (fst kv))) d)
  end.
Definition dkeys {V} (d : dict V) : list pykey := map fst d.

(** Rational comparisons as booleans: [a == b], [a <= b], [a < b] in Python. *)
Definition qeqb (a b : Q) : bool := Qeq_bool a b.
Definition qleb (a b : Q) : bool := Qle_bool a b.
Definition qltb (a b : Q) : bool := negb (Qle_bool b a).

(** Python's (and numpy's) [a % b] on numbers: a - b*floor(a/b). *)
Definition qmod (a b : Q) : Q := (a - b * inject_Z (Qfloor (a / b)))%Q.
Definition qabs (a : Q) : Q := if qltb a 0 then (- a)%Q else a.
