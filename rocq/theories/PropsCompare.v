(** Property theorems C43 and C54: comparing mesh files, rounding to significant
    figures.  Statements only. *)
From Coq Require Import Qabs.
From Verif Require Import Base QLib Geo Cell PyStr Dates Config Compare CompareSpec SigProofs CompareProofs.
Open Scope string_scope.
Open Scope Z_scope.

(** Files for the concrete cases: cells with geometry, id and data. *)
Definition cx_cell (g i : string) (v : json) : cell := [("geometry", JStr g); ("id", JStr i); ("SIC", v)].
Definition cx_graph (l : list Z) : sdict (sdict (list Z)) := [("0", [("1", []); ("2", l)])].
Definition cx_m1 : mesh_file := mkFile [cx_cell "A" "0" (JFloat (12345#1)); cx_cell "B" "1" (JFloat (1#3))] (cx_graph [1; 2]).
Definition cx_m2 : mesh_file := mkFile [cx_cell "A" "0" (JFloat (12346#1)); cx_cell "C" "2" (JFloat 1)] (cx_graph [2; 1]).
Definition cx_m3 : mesh_file := mkFile [cx_cell "A" "0" (JInt 12345)] (cx_graph [1]).
Definition cx_m4 : mesh_file := mkFile [cx_cell "A" "0" (JInt 12346)] (cx_graph [1]).
Definition cx_m5 : mesh_file := mkFile [[("id", JStr "0"); ("geometry", JStr "A"); ("SIC", JInt 12345)]] (cx_graph [1]).
Ltac cx_ok :=
  split; [discriminate|]; split; [cbn; intros c H; repeat (destruct H as [<-|H]; [eexists; reflexivity|]); destruct H|];
  split; [cbn; intros c H; repeat (destruct H as [<-|H]; [constructor; [repeat constructor; cbn; intuition discriminate|repeat constructor]|]); destruct H|];
  split; [repeat constructor; cbn; intuition discriminate|];
  split; [repeat constructor; cbn; intuition discriminate|];
  cbn; intros n d H; repeat (destruct H as [E|H]; [injection E as <- <-; repeat constructor; cbn; intuition discriminate|]); destruct H.
Lemma cx_ok1 : mesh_ok cx_m1. Proof. cx_ok. Qed.
Lemma cx_ok2 : mesh_ok cx_m2. Proof. cx_ok. Qed.
Lemma cx_ok3 : mesh_ok cx_m3. Proof. cx_ok. Qed.
Lemma cx_ok4 : mesh_ok cx_m4. Proof. cx_ok. Qed.
Lemma cx_ok5 : mesh_ok cx_m5. Proof. cx_ok. Qed.

(** C43.  A mesh compared with itself shows no difference, in all four comparisons. *)
Theorem C43_self : forall m, mesh_ok m ->
  compare_cellbox_boundaries m m None = Ok (AFrame empty_frame) /\
  (exists f, compare_cellbox_values m m None = Ok (AFrame f) /\ f_rows f = []) /\
  compare_cellbox_attributes m m None = Ok (AFrame empty_frame) /\
  graph_labels m m = Ok [].
Proof.
  intros m O. unfold compare_cellbox_boundaries, compare_cellbox_values, compare_cellbox_attributes.
  rewrite (self_boundaries m O), (self_attributes m O). destruct (self_values m O) as (f & -> & E).
  split; [reflexivity|]. split; [exists f; split; [reflexivity|exact E]|]. split; [reflexivity|]. apply self_graph, O.
Qed.
Print Assumptions C43_self.
Example C43_self_case : mesh_ok cx_m1. Proof. exact cx_ok1. Qed.
(** compare_cellbox_boundaries reports the cells of the second mesh that the
    first does not have, once each, with all their attributes. *)
Theorem C43_boundaries_partial : forall m1 m2, mesh_ok m1 -> mesh_ok m2 ->
  exists f, compare_cellbox_boundaries m1 m2 None = Ok (AFrame f) /\
    (forall l, In l (map fst (f_rows f)) <-> exists g, l = Some g /\ has_cell m2 g /\ ~ has_cell m1 g) /\
    NoDup (map fst (f_rows f)) /\
    (forall l vs, In (l, vs) (f_rows f) -> exists g c, l = Some g /\ cell_at m2 g c /\ vs = map (value c) (f_cols f)) /\
    (f_rows f <> [] -> forall s, In s (f_cols f) <-> s <> "geometry" /\ has_attribute m2 s).
Proof.
  intros m1 m2 O1 O2. destruct (boundaries_exact m1 m2 O1 O2) as (f & E & H). exists f. split; [|exact H].
  unfold compare_cellbox_boundaries. rewrite E. reflexivity.
Qed.
Print Assumptions C43_boundaries_partial.
Example C43_boundaries_case : mesh_ok cx_m1 /\ mesh_ok cx_m2 /\
  compare_cellbox_boundaries cx_m1 cx_m2 None = Ok (AFrame (mkFrame ["id"; "SIC"] [(Some "C", [JStr "2"; JFloat 1])])).
Proof. split; [exact cx_ok1|]. split; [exact cx_ok2|]. reflexivity. Qed.
(** A cell present only in the first mesh is never reported. *)
Theorem C43_refuted : exists m1 m2 g, mesh_ok m1 /\ mesh_ok m2 /\ has_cell m1 g /\ ~ has_cell m2 g /\
  compare_cellbox_boundaries m1 m2 None = Ok (AFrame empty_frame).
Proof.
  exists cx_m1, cx_m3, "B". split; [exact cx_ok1|]. split; [exact cx_ok3|].
  split; [exists (cx_cell "B" "1" (JFloat (1#3))); split; [right; left; reflexivity|reflexivity]|].
  split; [|reflexivity]. intros (c & [<-|[]] & E). discriminate E.
Qed.
Print Assumptions C43_refuted.
(** Values: exactly the cells of both meshes that differ, to four significant
    figures, in an attribute both meshes have. *)
Theorem C43_values : forall m1 m2, mesh_ok m1 -> mesh_ok m2 ->
  exists f, compare_cellbox_values m1 m2 None = Ok (AFrame f) /\
    (forall l, In l (map fst (f_rows f)) <->
       exists g s, l = Some g /\ s <> "geometry" /\ has_attribute m1 s /\ has_attribute m2 s /\ disagree m1 m2 g s) /\
    (forall s, In s (f_cols f) <-> s <> "geometry" /\ has_attribute m1 s /\ has_attribute m2 s).
Proof.
  intros m1 m2 O1 O2. destruct (values_exact m1 m2 O1 O2) as (f & E & H). exists f. split; [|exact H].
  unfold compare_cellbox_values. rewrite E. reflexivity.
Qed.
Print Assumptions C43_values.
Example C43_values_case : mesh_ok cx_m1 /\ mesh_ok cx_m3 /\
  compare_cellbox_values cx_m1 cx_m2 None = Ok (AFrame (mkFrame ["id"; "SIC"] [(Some "A", [JStr "0"; JFloat (1235 * pow10 1)])])) /\
  compare_cellbox_values cx_m3 cx_m4 None = Ok (AFrame (mkFrame ["id"; "SIC"] [(Some "A", [JStr "0"; JInt 12346])])).
Proof. split; [exact cx_ok1|]. split; [exact cx_ok3|]. split; vm_compute; reflexivity. Qed.
(** The tolerance applies to whole columns: whether two ints count as different
    depends on the other cells. *)
Theorem C43_tolerance_refuted : exists c1 c2 g rest, let m1 := mkFile [c1] [] in let m2 := mkFile [c2] [] in
  mesh_ok m1 /\ mesh_ok m2 /\ mesh_ok (mkFile (c1 :: rest) []) /\ mesh_ok (mkFile (c2 :: rest) []) /\
  (exists f, compare_cellbox_values m1 m2 None = Ok (AFrame f) /\ map fst (f_rows f) = [Some g]) /\
  (exists f, compare_cellbox_values (mkFile (c1 :: rest) []) (mkFile (c2 :: rest) []) None = Ok (AFrame f) /\ f_rows f = []).
Proof.
  exists (cx_cell "A" "0" (JInt 12341)), (cx_cell "A" "0" (JInt 12342)), "A", [cx_cell "B" "1" (JFloat 1)].
  cbv zeta. split; [cx_ok|]. split; [cx_ok|]. split; [cx_ok|]. split; [cx_ok|].
  split; eexists; (split; [vm_compute; reflexivity|reflexivity]).
Qed.
Print Assumptions C43_tolerance_refuted.
(** Attributes: exactly the cells of both meshes whose lists of attribute names
    differ. *)
Theorem C43_attributes : forall m1 m2, mesh_ok m1 -> mesh_ok m2 ->
  exists f, compare_cellbox_attributes m1 m2 None = Ok (AFrame f) /\
    forall l, In l (map fst (f_rows f)) <->
      exists g c1 c2, l = Some g /\ cell_at m1 g c1 /\ cell_at m2 g c2 /\ map fst c1 <> map fst c2.
Proof.
  intros m1 m2 O1 O2. destruct (attributes_exact m1 m2 O1 O2) as (f & E & H). exists f. split; [|exact H].
  unfold compare_cellbox_attributes. rewrite E. reflexivity.
Qed.
Print Assumptions C43_attributes.
(** ... so the same attributes in another order count as different. *)
Theorem C43_attribute_order_refuted : exists m1 m2 c1 c2 f, mesh_ok m1 /\ mesh_ok m2 /\ f_cells m1 = [c1] /\ f_cells m2 = [c2] /\
  (forall s, sget c1 s = sget c2 s) /\ compare_cellbox_attributes m1 m2 None = Ok (AFrame f) /\ map fst (f_rows f) = [Some "A"].
Proof.
  exists cx_m3, cx_m5. do 3 eexists. split; [exact cx_ok3|]. split; [exact cx_ok5|]. split; [reflexivity|]. split; [reflexivity|].
  split; [|split; reflexivity]. intros s. unfold cx_cell. cbn [sget].
  destruct (String.eqb s "geometry") eqn:E1; [apply String.eqb_eq in E1; subst; reflexivity|].
  destruct (String.eqb s "id") eqn:E2; reflexivity.
Qed.
Print Assumptions C43_attribute_order_refuted.
(** Neighbour graphs: exactly the cells of the second mesh whose id is a node of
    both graphs with different neighbours in some direction. *)
Theorem C43_graph : forall m1 m2, mesh_ok m1 -> mesh_ok m2 -> has_attribute m2 "id" ->
  exists ls, graph_labels m1 m2 = Ok ls /\
    forall l, In l ls <-> exists g c n d1 d2, l = Some g /\ cell_at m2 g c /\ sget c "id" = Some (JStr n) /\
      sget (f_graph m1) n = Some d1 /\ sget (f_graph m2) n = Some d2 /\ ~ same_neighbours d1 d2.
Proof. exact graph_exact_report. Qed.
Print Assumptions C43_graph.
Example C43_graph_case : mesh_ok cx_m1 /\ mesh_ok cx_m4 /\ has_attribute cx_m4 "id" /\
  graph_labels cx_m1 cx_m2 = Ok [] /\ graph_labels cx_m1 cx_m4 = Ok [Some "A"].
Proof.
  split; [exact cx_ok1|]. split; [exact cx_ok4|]. split; [eexists; split; [left; reflexivity|cbn; tauto]|]. split; reflexivity.
Qed.
(** A node that only one graph has is not reported. *)
Theorem C43_graph_refuted : exists m1 m2 n, mesh_ok m1 /\ mesh_ok m2 /\ f_cells m1 = f_cells m2 /\
  sget (f_graph m1) n = None /\ sget (f_graph m2) n <> None /\ graph_labels m1 m2 = Ok [].
Proof.
  exists (mkFile (f_cells cx_m3) []), cx_m3, "0". split; [cx_ok|]. split; [exact cx_ok3|]. repeat split. discriminate.
Qed.
Print Assumptions C43_graph_refuted.
(** Asking for the ids of the differences raises whenever there are none, and
    asking for the cell boxes raises always (no mesh has such an attribute). *)
Theorem C43_return_type_refuted : forall m, mesh_ok m ->
  compare_cellbox_boundaries m m (Some "id") = Err KeyError /\
  compare_cellbox_attributes m m (Some "id") = Err KeyError /\
  (forall m2, mesh_ok m2 -> ~ has_attribute m2 "cellboxes" -> compare_cellbox_boundaries m m2 (Some "cellboxes") = Err KeyError).
Proof.
  intros m O. unfold compare_cellbox_boundaries, compare_cellbox_attributes. rewrite (self_boundaries m O), (self_attributes m O).
  split; [reflexivity|]. split; [reflexivity|]. intros m2 O2 N.
  destruct (boundaries_exact m m2 O O2) as (f & E & _ & _ & _ & K). rewrite E. cbn [bind].
  unfold boundaries_frame in E. rewrite (indexed_ok m O), (indexed_ok m2 O2) in E. cbn [bind] in E.
  unfold return_as, df_column. cbn [in_strs existsb String.eqb Ascii.eqb Bool.eqb orb].
  assert (forall l, ~ In "cellboxes" l -> col_index "cellboxes" l = None) as X.
  { induction l as [|x l IH]; intros H; [reflexivity|]. cbn [col_index]. destruct (String.eqb "cellboxes" x) eqn:Q.
    - apply String.eqb_eq in Q. exfalso. apply H. left. symmetry. exact Q.
    - rewrite IH; [reflexivity|]. intros I. apply H. right. exact I. }
  rewrite X; [reflexivity|]. destruct (filter _ _); injection E as <-; [intros []|].
  cbn [to_frame f_cols]. rewrite columns_in. intros [_ H]. exact (N H).
Qed.
Print Assumptions C43_return_type_refuted.

(** C54.  round_to_sigfig of a float is a number with that many figures that no
    other such number beats, at most half a unit of the last figure away, with
    ties going to the even figure; it is monotone, and numbers with that many
    figures stay as they are. *)
Theorem C54_float : forall x s, 1 <= s ->
  round_to_sigfig (JFloat x) s = Ok (JFloat (sigfig_float x s)) /\
  nearest s x (sigfig_float x s) /\
  (forall e, ~ (x == 0)%Q -> (pow10 e <= Qabs x < pow10 (e + 1))%Q ->
     (Qabs (x - sigfig_float x s) <= (1#2) * pow10 (e + 1 - s))%Q /\
     ((Qabs (x - sigfig_float x s) == (1#2) * pow10 (e + 1 - s))%Q ->
        exists m, (sigfig_float x s == inject_Z m * pow10 (e + 1 - s))%Q /\ Z.even m = true)) /\
  (has_sigfigs s x -> (sigfig_float x s == x)%Q) /\
  (forall y, (x <= y)%Q -> (sigfig_float x s <= sigfig_float y s)%Q).
Proof.
  intros x s S. split; [reflexivity|]. split; [apply sigfig_nearest, S|]. split; [|split].
  - intros e N B. split; [|apply sigfig_tie; assumption]. destruct (sigfig_error x s N) as (e' & B' & H).
    rewrite <- (exponent_unique x e B), (exponent_unique x e' B'). exact H.
  - apply sigfig_fixed, S.
  - intros y. apply sigfig_mono, S.
Qed.
Print Assumptions C54_float.
Example C54_case : 1 <= 4 /\ (sigfig_float (123456 # 10) 4 == 12350)%Q /\ (sigfig_float (-(1#3)) 4 == -(3333#10000))%Q /\
  (sigfig_float (123450 # 1) 4 == 123400)%Q /\ (sigfig_float (99999 # 1) 4 == 100000)%Q.
Proof. repeat split; try lia; vm_compute; reflexivity. Qed.
(** Lists of floats: each one by itself. *)
Theorem C54_list : forall l s, round_to_sigfig (JArr (map JFloat l)) s = Ok (JArr (map (fun q => JFloat (sigfig_float q s)) l)).
Proof.
  intros [|x l] s; [reflexivity|]. cbn [map round_to_sigfig].
  assert (forallb is_num (JFloat x :: map JFloat l) = true) as ->.
  { apply forallb_forall. intros y [<-|I]; [reflexivity|]. apply in_map_iff in I. destruct I as (q & <- & _). reflexivity. }
  cbn [existsb is_float orb andb map]. rewrite map_map. reflexivity.
Qed.
Print Assumptions C54_list.
(** An int, and a list of ints, cannot be rounded although the function says it
    takes them. *)
Theorem C54_int_refuted : forall z zs s, round_to_sigfig (JInt z) s = Err TypeError /\
  round_to_sigfig (JArr (map JInt (z :: zs))) s = Err TypeError.
Proof.
  intros z zs s. split; [reflexivity|]. cbn [map round_to_sigfig].
  assert (existsb is_float (JInt z :: map JInt zs) = false) as ->.
  { cbn [existsb is_float orb]. induction zs; [reflexivity|exact IHzs]. }
  rewrite andb_false_r. reflexivity.
Qed.
Print Assumptions C54_int_refuted.
