(** Python's string methods, on strings of 8-bit characters.  No proofs here.
    (Python's strings hold Unicode code points; every literal in the modelled
    code is ASCII.  Non-ASCII digits, spaces and letters are not modelled.) *)
From Coq Require Export Ascii String.
From Verif Require Import Base.
Open Scope string_scope.

(** [s.startswith(p)], with the rest of s *)
Fixpoint strip_prefix (p s : string) : option string :=
  match p, s with
  | "", _ => Some s
  | String a p', String b s' => if Ascii.eqb a b then strip_prefix p' s' else None
  | String _ _, "" => None
  end.
(** The first occurrence of [sep] in [s]: what precedes and what follows it. *)
Fixpoint cut (sep s : string) : option (string * string) :=
  match strip_prefix sep s with
  | Some r => Some ("", r)
  | None => match s with
            | "" => None
            | String c s' => match cut sep s' with Some (a, b) => Some (String c a, b) | None => None end
            end
  end.
(** [sub in s] *)
Definition contains (sub s : string) : bool := match cut sub s with Some _ => true | None => false end.
(** [s.split(sep)] for a non-empty separator.  The fuel is the length of [s],
    which bounds the number of occurrences. *)
Fixpoint split_fuel (n : nat) (sep s : string) : list string :=
  match n with
  | O => [s]
  | S n' => match cut sep s with Some (a, b) => a :: split_fuel n' sep b | None => [s] end
  end.
Definition split (sep s : string) : list string := split_fuel (String.length s) sep s.

(** The characters [str.strip] removes: tab to carriage return, the four
    information separators, space. *)
Definition is_space (c : ascii) : bool :=
  let n := nat_of_ascii c in
  ((9 <=? n) && (n <=? 13) || (28 <=? n) && (n <=? 32))%nat.
Fixpoint lstrip (s : string) : string :=
  match s with String c s' => if is_space c then lstrip s' else s | "" => "" end.
Fixpoint rstrip (s : string) : string :=
  match s with
  | "" => ""
  | String c s' => match rstrip s' with
                   | "" => if is_space c then "" else String c ""
                   | r => String c r
                   end
  end.
Definition strip (s : string) : string := rstrip (lstrip s).

Definition upper_char (c : ascii) : ascii :=
  let n := nat_of_ascii c in
  if ((97 <=? n) && (n <=? 122))%nat then ascii_of_nat (n - 32) else c.
Definition lower_char (c : ascii) : ascii :=
  let n := nat_of_ascii c in
  if ((65 <=? n) && (n <=? 90))%nat then ascii_of_nat (n + 32) else c.
Fixpoint smap (f : ascii -> ascii) (s : string) : string :=
  match s with "" => "" | String c s' => String (f c) (smap f s') end.
(** [s.upper()], [s.lower()] *)
Definition upper : string -> string := smap upper_char.
Definition lower : string -> string := smap lower_char.
(** [s.replace(c, '')] for one character *)
Fixpoint drop_char (c : ascii) (s : string) : string :=
  match s with "" => "" | String d s' => if Ascii.eqb c d then drop_char c s' else String d (drop_char c s') end.

(** [sep.join(l)] *)
Definition join (sep : string) (l : list string) : string := String.concat sep l.

(** Decimal digits. *)
Definition digit (c : ascii) : option Z :=
  let n := nat_of_ascii c in
  if ((48 <=? n) && (n <=? 57))%nat then Some (Z.of_nat n - 48)%Z else None.
