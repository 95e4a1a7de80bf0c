(** Specification of the test automation (C80): changed files, registered tests, and the
    summary pytest prints. *)
From Verif Require Import Base Cell PyStr Automate.
Open Scope string_scope.

Definition within (sub s : string) : Prop := exists a b, s = a ++ sub ++ b.
(** A file was added, removed or changed between two trees. *)
Definition differs (a b : tree) (f : string) : Prop := sget a f <> sget b f.
(** Names of files without line breaks, and not empty. *)
Definition good_name (f : string) : Prop := f <> "" /\ ~ within newline f.
Definition good_tree (t : tree) : Prop := forall f, In f (map fst t) -> good_name f.
(** [f] is the name of a file in some directory. *)
Definition named (path f : string) : Prop := ~ within "/" f /\ (path = f \/ exists dir, path = dir ++ "/" ++ f).
(** [test] is registered for one of the files. *)
Definition registered (table : test_table) (files : list string) (test : string) : Prop :=
  exists path f tests, In path files /\ named path f /\ In (f, tests) table /\ In test tests.
(** A way of listing sets. *)
Definition lists_sets (listed : list string -> list string) : Prop :=
  forall l, NoDup (listed l) /\ forall x, In x (listed l) <-> In x l.

(** ** The summary of pytest *)
Definition word (w : string) : Prop :=
  w <> "" /\ forall c, In c (list_ascii_of_string w) -> is_space c = false /\ c <> ":"%char /\ c <> "["%char /\ c <> "]"%char.
(** A test function with one parameter, or a method of a class; then anything, such as
    the reason of a failure. *)
Inductive outcome :=
| parametrised (status path test param rest : string)
| method (status path class name rest : string).
Definition line_of (o : outcome) : string :=
  match o with
  | parametrised s p t r rest => s ++ " " ++ p ++ "::" ++ t ++ "[" ++ r ++ "]" ++ rest
  | method s p c m rest => s ++ " " ++ p ++ "::" ++ c ++ "::" ++ m ++ rest
  end.
Definition status_of (o : outcome) : string := match o with parametrised s _ _ _ _ | method s _ _ _ _ => s end.
Definition info_of (o : outcome) : test_info :=
  match o with parametrised s p t r _ => mkTI p t r s | method s p c m _ => mkTI p c m s end.
Definition good_outcome (o : outcome) : Prop :=
  match o with
  | parametrised s p t r rest => word p /\ word t /\ ~ within "/" t /\ word r
  | method s p c m rest => word p /\ word c /\ ~ within "/" c /\ word m /\ (rest = "" \/ exists r, rest = " " ++ r \/ rest = "[" ++ r)
  end /\ In (status_of o) ["PASSED"; "FAILED"; "ERROR"] /\ ~ within newline (line_of o).
Definition having (s : string) (os : list outcome) : list test_info :=
  map info_of (filter (fun o => String.eqb (status_of o) s) os).
(** The output: lines before the summary, its title, a line per test, and lines that name
    no tests. *)
Definition output (stdout : string) (os : list outcome) : Prop :=
  exists before title after, stdout = join newline (before ++ title :: map line_of os ++ after) /\
    (forall l, In l before -> ~ within newline l /\ ~ within "short test summary info" l) /\
    ~ within newline title /\ within "short test summary info" title /\ ~ within "::" title /\
    (forall l, In l after -> ~ within newline l /\ ~ within "::" l).

(** ** Histories *)
Inductive ancestor {commit} (parent : commit -> commit -> Prop) : commit -> commit -> Prop :=
| anc_self c : ancestor parent c c
| anc_step a b c : ancestor parent a b -> parent b c -> ancestor parent a c.
Definition is_merge_base {commit} (parent : commit -> commit -> Prop) (m a b : commit) : Prop :=
  ancestor parent m a /\ ancestor parent m b /\ forall c, ancestor parent c a -> ancestor parent c b -> ancestor parent c m.
(** The chosen tests: those of a kind are run unless only the other kind is asked for. *)
Definition chosen (this other : bool) : Prop := this = true \/ other = false.
(** The tests of a directory that are run, each once. *)
Definition runs (table : test_table) (changed : string -> Prop) (on : Prop) (tests : list string) : Prop :=
  NoDup tests /\ forall test, In test tests <-> on /\ exists path f ts, changed path /\ named path f /\ In (f, ts) table /\ In test ts.
(** What the tests of a directory say, one after another. *)
Definition saying (told : string -> list outcome) (dir : string) (tests : list string) (os : list outcome) : Prop :=
  os = List.concat (map (fun t => told (dir ++ "/" ++ t)) tests).
