(** Property theorem C82: which waypoints are accepted. *)
From Coq Require Import String.
From Verif Require Import Base Cell Waypoints WaypointsSpec.
Open Scope string_scope.

Lemma mem_in n l : existsb (String.eqb n) l = true <-> In n l.
Proof.
  rewrite existsb_exists. split; [intros (x & I & E); apply String.eqb_eq in E; subst; exact I|]. intros I. exists n. split; [exact I|apply String.eqb_refl].
Qed.
Lemma mem_not n l : existsb (String.eqb n) l = false <-> ~ In n l.
Proof. rewrite <- mem_in. destruct (existsb _ l); intuition congruence. Qed.
Lemma sget_keys {V} (d : sdict V) k : In k (map fst d) <-> exists v, sget d k = Some v.
Proof.
  induction d as [|[a v] d IH]; cbn; [split; [intros []|intros (? & [=])]|]. destruct (String.eqb_spec k a) as [-> | N]; [split; eauto|].
  rewrite <- IH. intuition congruence.
Qed.
Lemma marked_in col : marked col = true <-> In (WStr "X") col.
Proof.
  unfold marked. rewrite existsb_exists. split.
  - intros (v & I & E). destruct v; try discriminate. apply String.eqb_eq in E. subst. exact I.
  - intros I. exists (WStr "X"). auto.
Qed.

Lemma reset_values f : index_apart f -> exists df, reset_index f = Ok df /\
  (forall n, In n required -> forall col, sget df n = Some col <-> values f n col).
Proof.
  intros A. unfold reset_index, index_apart, values in *. destruct (fr_name f) as [m|].
  - rewrite (proj2 (mem_not m _) A). eexists. split; [reflexivity|]. intros n R col. cbn. destruct (String.eqb_spec n m) as [-> | N].
    + split; [intros [= <-]; auto|]. intros [H|(_ & <-)]; [|reflexivity]. exfalso. apply A, sget_keys. eauto.
    + split; [auto|]. intros [H|([= <-] & _)]; [exact H|contradiction].
  - destruct (existsb (String.eqb "index") _) eqn:E1.
    + assert (E2 : existsb (String.eqb "level_0") (map fst (fr_cols f)) = false) by (apply mem_not; intros H; apply A; split; [apply mem_in, E1|exact H]).
      rewrite E2. eexists. split; [reflexivity|]. intros n R col. cbn. destruct (String.eqb_spec n "level_0") as [-> | N]; [cbn in R; intuition discriminate|].
      split; [auto|]. intros [H|([=] & _)]. exact H.
    + rewrite E1. eexists. split; [reflexivity|]. intros n R col. cbn. destruct (String.eqb_spec n "index") as [-> | N]; [cbn in R; intuition discriminate|].
      split; [auto|]. intros [H|([=] & _)]. exact H.
Qed.
Lemma reset_refused f : ~ index_apart f -> reset_index f = Err ValueError.
Proof.
  unfold reset_index, index_apart. destruct (fr_name f) as [m|]; intros A.
  - destruct (existsb (String.eqb m) _) eqn:E; [reflexivity|]. exfalso. apply A, mem_not, E.
  - destruct (existsb (String.eqb "index") _) eqn:E1.
    + destruct (existsb (String.eqb "level_0") _) eqn:E2; [reflexivity|]. exfalso. apply A. intros (_ & H). apply mem_in in H. congruence.
    + exfalso. apply A. intros (H & _). apply mem_in in H. congruence.
Qed.

Section Props.
Variables (missing : string -> bool) (number : string -> option wnum) (flag : string -> option bool) (opened : string -> option csv).
Notation validate := (validate_waypoints missing number flag opened).

Lemma not_null_spec v : not_null missing number v = true <-> a_number missing number v.
Proof.
  destruct v; cbn; try intuition congruence. rewrite andb_true_iff, negb_true_iff. destruct (number s); intuition congruence.
Qed.

(** C82.  A DataFrame is accepted exactly if it has the required columns (one of them may
    be its index), an X among the sources and among the destinations, and a number in every
    row of the coordinates; what is refused for one of these reasons is refused with
    AssertionError. *)
Theorem C82_frame : forall f, index_apart f ->
  (validate (AFrame f) = Ok tt <->
     (forall n, In n required -> exists col, values f n col) /\
     (forall n, In n ["Source"; "Destination"] -> exists col, values f n col /\ In (WStr "X") col) /\
     (forall n, In n ["Lat"; "Long"] -> exists col, values f n col /\ forall v, In v col -> a_number missing number v)) /\
  (validate (AFrame f) <> Ok tt -> validate (AFrame f) = Err AssertionError).
Proof.
  intros f A. destruct (reset_values f A) as (df & E & V). unfold validate_waypoints. rewrite E. cbn [bind]. unfold assert_.
  destruct (forallb (fun c => existsb (String.eqb c) (map fst df)) waypoints_columns) eqn:R; cbn [bind].
  - rewrite forallb_forall in R. assert (C : forall n, In n required -> exists col, sget df n = Some col) by (intros n I; apply sget_keys, mem_in, R, I).
    destruct (C "Source" ltac:(cbn; auto)) as (s & Es). destruct (C "Destination" ltac:(cbn; auto 6)) as (d & Ed).
    destruct (C "Lat" ltac:(cbn; auto)) as (la & Ela). destruct (C "Long" ltac:(cbn; auto)) as (lo & Elo).
    unfold get_column. rewrite Es, Ed, Ela, Elo. cbn [bind].
    assert (U : forall n col col', In n required -> sget df n = Some col -> values f n col' -> col' = col) by (intros n col col' I Ec Hc; apply V in Hc; [congruence|exact I]).
    assert (M : forall col, marked col = true <-> In (WStr "X") col) by apply marked_in.
    assert (N : forall col, forallb (not_null missing number) col = true <-> forall v, In v col -> a_number missing number v).
    { intros col. rewrite forallb_forall. split; intros H v I; apply not_null_spec, H, I. }
    assert (Vs : values f "Source" s) by (apply V; [cbn; auto|exact Es]). assert (Vd : values f "Destination" d) by (apply V; [cbn; auto 6|exact Ed]).
    assert (Vla : values f "Lat" la) by (apply V; [cbn; auto|exact Ela]). assert (Vlo : values f "Long" lo) by (apply V; [cbn; auto|exact Elo]).
    destruct (marked s) eqn:Ms; cbn [bind].
    2: { split; [|auto]. split; [discriminate|]. intros (_ & H & _). destruct (H "Source") as (col & Hc & X); [cbn; auto|]. rewrite (U "Source" _ _ ltac:(cbn; auto) Es Hc) in X. apply M in X. congruence. }
    destruct (marked d) eqn:Md; cbn [bind].
    2: { split; [|auto]. split; [discriminate|]. intros (_ & H & _). destruct (H "Destination") as (col & Hc & X); [cbn; auto|]. rewrite (U "Destination" _ _ ltac:(cbn; auto 6) Ed Hc) in X. apply M in X. congruence. }
    destruct (forallb (not_null missing number) la) eqn:Nla; cbn [bind].
    2: { split; [|auto]. split; [discriminate|]. intros (_ & _ & H). destruct (H "Lat") as (col & Hc & X); [cbn; auto|]. rewrite (U "Lat" _ _ ltac:(cbn; auto) Ela Hc) in X. apply N in X. congruence. }
    destruct (forallb (not_null missing number) lo) eqn:Nlo.
    2: { split; [|auto]. split; [discriminate|]. intros (_ & _ & H). destruct (H "Long") as (col & Hc & X); [cbn; auto|]. rewrite (U "Long" _ _ ltac:(cbn; auto) Elo Hc) in X. apply N in X. congruence. }
    split; [|congruence]. split; [|reflexivity]. intros _. split; [|split].
    + intros n I. destruct (C n I) as (col & Ec). exists col. apply V; assumption.
    + intros n [<-|[<-|[]]]; eexists; (split; [eassumption|apply M; assumption]).
    + intros n [<-|[<-|[]]]; eexists; (split; [eassumption|apply N; assumption]).
  - split; [|auto]. split; [discriminate|]. intros (H & _). exfalso. assert (R' : forallb (fun c => existsb (String.eqb c) (map fst df)) waypoints_columns = true); [|congruence].
    apply forallb_forall. intros n I. apply mem_in, sget_keys. destruct (H n I) as (col & Hc). exists col. apply V; [exact I|exact Hc].
Qed.

(** The frame of a csv file. *)
Lemma combine_pos {A} : forall (l : list A) k, forall i, nth_error (combine (seq k (List.length l)) l) i = option_map (fun a => (k + i, a)%nat) (nth_error l i).
Proof. induction l as [|a l IH]; intros k [|i]; cbn; try reflexivity; [f_equal; f_equal; lia|]. rewrite IH. destruct (nth_error l i); cbn; [f_equal; f_equal; lia|reflexivity]. Qed.
Lemma sget_map_pos (h : list string) (g : nat -> list wval) : NoDup h -> forall k n col,
  sget (map (fun kn => (snd kn, g (fst kn))) (combine (seq k (List.length h)) h)) n = Some col <-> exists i, nth_error h i = Some n /\ col = g (k + i)%nat.
Proof.
  induction h as [|a h IH]; intros N k n col; cbn.
  - split; [discriminate|]. intros ([|i] & [=] & _).
  - inversion N as [|a' h' Na Nh]; subst. destruct (String.eqb_spec n a) as [-> | D].
    + split; [intros [= <-]; exists 0%nat; split; [reflexivity|f_equal; lia]|]. intros ([|i] & E & ->); [f_equal; f_equal; lia|]. exfalso. apply Na. eapply nth_error_In, E.
    + rewrite (IH Nh (S k)). split.
      * intros (i & E & ->). exists (S i). split; [exact E|f_equal; lia].
      * intros ([|i] & E & ->); [injection E as ->; contradiction|]. exists i. split; [exact E|f_equal; lia].
Qed.
Lemma names_map_pos {A} (h : list string) (g : nat -> A) : forall k, map fst (map (fun kn => (snd kn, g (fst kn))) (combine (seq k (List.length h)) h)) = h.
Proof. induction h as [|a h IH]; intros k; cbn; [reflexivity|]. f_equal. apply IH. Qed.

Hypothesis (Xm : missing "X" = false) (Xn : number "X" = None) (Xf : flag "X" = None).

Lemma text_marked cells : In (WStr "X") (text_column missing number flag cells) <-> In "X" cells.
Proof.
  unfold text_column. destruct (forallb _ cells) eqn:E.
  - split.
    + intros I. apply in_map_iff in I. destruct I as (s & Es & I). destruct (missing s); [discriminate|]. destruct (number s); discriminate.
    + intros I. rewrite forallb_forall in E. specialize (E _ I). rewrite Xm, Xn in E. discriminate.
  - destruct (forallb _ cells) eqn:E2 in |- *.
    + split.
      * intros I. apply in_map_iff in I. destruct I as (s & Es & I). destruct (flag s); discriminate.
      * intros I. rewrite forallb_forall in E2. specialize (E2 _ I). rewrite Xm, Xf in E2. discriminate.
    + split.
      * intros I. apply in_map_iff in I. destruct I as (s & Es & I). destruct (missing s); [discriminate|]. injection Es as ->. exact I.
      * intros I. apply in_map_iff. exists "X". rewrite Xm. auto.
Qed.
Lemma text_numbers cells : (forall v, In v (text_column missing number flag cells) -> a_number missing number v) <->
  (forall s, In s cells -> missing s = false /\ exists x, number s = Some x) \/ (forall s, In s cells -> missing s = false /\ exists b, flag s = Some b).
Proof.
  unfold text_column. destruct (forallb _ cells) eqn:E.
  - rewrite forallb_forall in E. split.
    + intros H. left. intros s I. specialize (E s I). specialize (H _ (in_map _ _ _ I)). cbv beta in H. destruct (missing s); [destruct H|]. destruct (number s); [eauto|discriminate].
    + intros H v I. apply in_map_iff in I. destruct I as (s & <- & I). specialize (E s I).
      destruct H as [H|H]; destruct (H s I) as (M & x & F); rewrite M in E |- *; destruct (number s); try discriminate; exact Logic.I.
  - destruct (forallb _ cells) eqn:E2 in |- *.
    + rewrite forallb_forall in E2. split.
      * intros _. right. intros s I. specialize (E2 s I). destruct (missing s); [discriminate|]. destruct (flag s); [eauto|discriminate].
      * intros _ v I. apply in_map_iff in I. destruct I as (s & <- & I). specialize (E2 s I). destruct (flag s); [exact Logic.I|]. rewrite andb_false_r in E2. discriminate.
    + split.
      * intros H. left. intros s I. specialize (H _ (in_map _ _ _ I)). cbv beta in H. destruct (missing s) eqn:M; [destruct H|]. destruct H as (_ & H). destruct (number s); [eauto|congruence].
      * intros [H|H]; exfalso.
        -- assert (forallb (fun s => missing s || match number s with Some _ => true | None => false end) cells = true); [|congruence].
           apply forallb_forall. intros s I. destruct (H s I) as (-> & x & ->). reflexivity.
        -- assert (forallb (fun s => negb (missing s) && match flag s with Some _ => true | None => false end) cells = true); [|congruence].
           apply forallb_forall. intros s I. destruct (H s I) as (-> & x & ->). reflexivity.
Qed.

(** C82.  A csv file is accepted exactly if it has the required columns, a row marked as
    source, one marked as destination, and in every row a number for either coordinate, or
    in every row a flag. *)
Theorem C82_file : forall p c, opened p = Some c -> table_of c -> ~ (In "index" (csv_header c) /\ In "level_0" (csv_header c)) ->
  (validate (APath p) = Ok tt <->
     (forall n, In n required -> In n (csv_header c)) /\ marked_row c "Source" /\ marked_row c "Destination" /\
     (forall n, In n ["Lat"; "Long"] -> all_numbers missing number c n \/ all_flags missing flag c n)).
Proof.
  intros p c O (Nd & Len) Ap.
  destruct (csv_header c) as [|h0 h] eqn:Eh.
  { unfold validate_waypoints, read_csv. rewrite O, Eh. cbn [bind]. split; [discriminate|]. intros (H & _). destruct (H "Name"). left. reflexivity. }
  set (f := mkFrame None (map (fun i => WNum (WFin (inject_Z (Z.of_nat i)))) (seq 0 (List.length (csv_rows c))))
                    (map (fun kn => (snd kn, text_column missing number flag (map (fun row => nth (fst kn) row "") (csv_rows c)))) (combine (seq 0 (List.length (csv_header c))) (csv_header c)))).
  assert (Ef : validate (APath p) = validate (AFrame f)) by (unfold validate_waypoints, read_csv, f; rewrite O, Eh; reflexivity).
  rewrite <- Eh in *. clear Eh h0 h.
  assert (Nm : map fst (fr_cols f) = csv_header c) by (apply (names_map_pos (csv_header c) (fun i => text_column missing number flag (map (fun row => nth i row "") (csv_rows c))))).
  assert (A : index_apart f) by (unfold index_apart; cbn [fr_name f]; rewrite Nm; exact Ap).
  assert (V : forall n col, values f n col <-> exists i, nth_error (csv_header c) i = Some n /\ col = text_column missing number flag (map (fun row => nth i row "") (csv_rows c))).
  { intros n col. unfold values. cbn [fr_name f].
    pose proof (sget_map_pos (csv_header c) (fun i => text_column missing number flag (map (fun row => nth i row "") (csv_rows c))) Nd 0 n col) as S. cbn [Nat.add] in S.
    rewrite <- S. unfold f. cbn [fr_cols]. split; [intros [H|([=] & _)]; exact H|auto]. }
  assert (Cell : forall row i n, In row (csv_rows c) -> nth_error (csv_header c) i = Some n -> field c row n (nth i row "")).
  { intros row i n I E. exists i. split; [exact E|]. apply nth_error_nth'. rewrite (Len _ I). apply nth_error_Some. congruence. }
  assert (Cell' : forall row i n t, nth_error (csv_header c) i = Some n -> field c row n t -> t = nth i row "").
  { intros row i n t E (j & Ej & Et). assert (j = i).
    { apply (proj1 (NoDup_nth_error _) Nd); [apply nth_error_Some; congruence|congruence]. }
    subst j. symmetry. apply nth_error_nth, Et. }
  rewrite Ef. destruct (C82_frame f A) as (H & _). rewrite H. clear H. split.
  - intros (H1 & H2 & H3). split; [|split; [|split]].
    + intros n I. destruct (H1 n I) as (col & Hc). apply V in Hc. destruct Hc as (i & E & _). eapply nth_error_In, E.
    + destruct (H2 "Source") as (col & Hc & X); [cbn; auto|]. apply V in Hc. destruct Hc as (i & E & ->). apply text_marked, in_map_iff in X. destruct X as (row & Ex & I).
      exists row. split; [exact I|]. rewrite <- Ex. apply Cell; assumption.
    + destruct (H2 "Destination") as (col & Hc & X); [cbn; auto|]. apply V in Hc. destruct Hc as (i & E & ->). apply text_marked, in_map_iff in X. destruct X as (row & Ex & I).
      exists row. split; [exact I|]. rewrite <- Ex. apply Cell; assumption.
    + intros n I. destruct (H3 n I) as (col & Hc & X). apply V in Hc. destruct Hc as (i & E & ->).
      destruct (proj1 (text_numbers _) X) as [Y|Y]; [left|right]; intros row t Ir Ft; rewrite (Cell' row i n t E Ft); apply Y, in_map_iff; eauto.
  - intros (H1 & (r1 & I1 & F1) & (r2 & I2 & F2) & H4).
    assert (P : forall n, In n required -> exists i, nth_error (csv_header c) i = Some n) by (intros n I; apply In_nth_error, H1, I).
    split; [|split].
    + intros n I. destruct (P n I) as (i & E). eexists. apply V. exists i. split; [exact E|reflexivity].
    + intros n I. assert (R : exists row, In row (csv_rows c) /\ field c row n "X") by (destruct I as [<-|[<-|[]]]; eauto).
      destruct R as (row & Ir & Fr). destruct (P n) as (i & E); [cbn in I |- *; intuition auto|].
      eexists. split; [apply V; exists i; split; [exact E|reflexivity]|]. apply text_marked, in_map_iff. exists row. split; [symmetry; eapply Cell'; eassumption|exact Ir].
    + intros n I. destruct (P n) as (i & E); [cbn in I |- *; intuition auto|]. eexists. split; [apply V; exists i; split; [exact E|reflexivity]|]. apply text_numbers.
      destruct (H4 n I) as [Y|Y]; [left|right]; intros s Is; apply in_map_iff in Is; destruct Is as (row & <- & Ir); apply (Y row); auto.
Qed.
End Props.
Print Assumptions C82_frame.
Print Assumptions C82_file.

(** C82.  Anything else: TypeError; a file that is not there: FileNotFoundError. *)
Theorem C82_others : forall missing number flag opened p, opened p = None ->
  validate_waypoints missing number flag opened AOther = Err TypeError /\ validate_waypoints missing number flag opened (APath p) = Err FileNotFoundError.
Proof. intros missing number flag opened p O. split; [reflexivity|]. unfold validate_waypoints, read_csv. rewrite O. reflexivity. Qed.
Print Assumptions C82_others.

(** C82.  Coordinates need not exist on the globe; flags pass for coordinates; names of
    columns that are not used can make a table unacceptable. *)
Definition demo (la lo : string) : csv := mkCsv ["Name"; "Lat"; "Long"; "Source"; "Destination"] [["A"; la; lo; "X"; ""]; ["B"; la; lo; ""; "X"]].
Theorem C82_range_refuted : forall missing number flag la lo q r, missing "X" = false -> number "X" = None -> flag "X" = None ->
  missing la = false -> missing lo = false -> number la = Some (WFin q) -> number lo = Some r ->
  validate_waypoints missing number flag (fun _ => Some (demo la lo)) (APath "waypoints.csv") = Ok tt.
Proof.
  intros missing number flag la lo q r X1 X2 X3 M1 M2 N1 N2. apply (C82_file missing number flag (fun _ => Some (demo la lo)) X1 X2 X3 "waypoints.csv" (demo la lo) eq_refl).
  - split; [repeat constructor; cbn; intuition discriminate|]. intros row [<-|[<-|[]]]; reflexivity.
  - cbn. intuition discriminate.
  - split; [intros n I; exact I|]. split; [exists ["A"; la; lo; "X"; ""]; split; [left; reflexivity|exists 3%nat; auto]|].
    split; [exists ["B"; la; lo; ""; "X"]; split; [right; left; reflexivity|exists 4%nat; auto]|].
    intros n I. left. intros row t Ir (i & E1 & E2). destruct I as [<-|[<-|[]]]; (destruct i as [|[|[|[|[|[|i]]]]]]; try discriminate E1); destruct Ir as [<-|[<-|[]]]; injection E2 as <-; eauto.
Qed.
Print Assumptions C82_range_refuted.
Theorem C82_flags_refuted : exists missing number flag, number "True" = None /\ flag "True" = Some true /\
  validate_waypoints missing number flag (fun _ => Some (demo "True" "True")) (APath "waypoints.csv") = Ok tt.
Proof.
  exists (fun s => String.eqb s ""), (fun _ => None), (fun s => if String.eqb s "True" then Some true else None). split; [reflexivity|]. split; [reflexivity|]. vm_compute. reflexivity.
Qed.
Print Assumptions C82_flags_refuted.
Theorem C82_index_refuted : forall missing number flag opened f, ~ index_apart f -> validate_waypoints missing number flag opened (AFrame f) = Err ValueError.
Proof. intros missing number flag opened f A. unfold validate_waypoints. rewrite (reset_refused f A). reflexivity. Qed.
Print Assumptions C82_index_refuted.

(** A table whose index is the name; and a frame with an index of a used name. *)
Example C82_case :
  let num s := if String.eqb s "-62" then Some (WFin (-62)) else None in
  let cols := [("Lat", [WNum (WFin 1); WStr "-62"]); ("Long", [WNum WInf; WNum (WFin 1000)]); ("Source", [WStr "X"; WNaN]); ("Destination", [WNaN; WStr "X"])] in
  index_apart (mkFrame (Some "Name") [WStr "A"; WStr "B"] cols) /\ ~ index_apart (mkFrame (Some "Lat") [WStr "A"; WStr "B"] cols) /\
  validate_waypoints (fun s => String.eqb s "") num (fun _ => None) (fun _ => None) (AFrame (mkFrame (Some "Name") [WStr "A"; WStr "B"] cols)) = Ok tt /\
  validate_waypoints (fun s => String.eqb s "") num (fun _ => None) (fun _ => None) (AFrame (mkFrame None [WStr "A"; WStr "B"] cols)) = Err AssertionError.
Proof. cbv zeta. split; [cbn; intuition discriminate|]. split; [cbn; intuition|]. split; vm_compute; reflexivity. Qed.
