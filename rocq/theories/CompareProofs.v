(** Proofs about comparing two mesh files. *)
From Coq Require Import Permutation.
From Verif Require Import Base QLib Geo Cell PyStr Dates Config ParamProofs Compare CompareSpec SigProofs.
Open Scope string_scope.
Open Scope Z_scope.

(** ** Equality of JSON values *)
Section JsonInd.
  Variable P : json -> Prop.
  Hypothesis Hnull : P JNull.
  Hypothesis Hbool : forall b, P (JBool b).
  Hypothesis Hint : forall z, P (JInt z).
  Hypothesis Hfloat : forall q, P (JFloat q).
  Hypothesis Hstr : forall s, P (JStr s).
  Hypothesis Harr : forall l, Forall P l -> P (JArr l).
  Hypothesis Hobj : forall o, Forall (fun kv => P (snd kv)) o -> P (JObj o).
  Fixpoint json_nested (j : json) : P j :=
    match j with
    | JNull => Hnull | JBool b => Hbool b | JInt z => Hint z | JFloat q => Hfloat q | JStr s => Hstr s
    | JArr l => Harr l ((fix go (l : list json) : Forall P l :=
                           match l with [] => Forall_nil _ | x :: m => Forall_cons _ (json_nested x) (go m) end) l)
    | JObj o => Hobj o ((fix go (o : sdict json) : Forall (fun kv => P (snd kv)) o :=
                           match o with
                           | [] => Forall_nil _
                           | kv :: m => Forall_cons kv (match kv return P (snd kv) with (k, v) => json_nested v end) (go m)
                           end) o)
    end.
End JsonInd.

Lemma number_eq : forall j, number j = float_of j.
Proof. intros [| [|] | | | | |]; reflexivity. Qed.
Lemma jeq_num_iff : forall a b x, float_of a = Some x -> (jeq a b <-> exists y, float_of b = Some y /\ (x == y)%Q).
Proof.
  intros a b x H. split.
  - intros J. inversion J; subst; cbn in H; try discriminate. rewrite number_eq in *. rewrite H in H0. injection H0 as <-. eauto.
  - intros (y & F & E). rewrite <- number_eq in H, F. exact (jeq_num a b x y H F E).
Qed.

Lemma py_eqb_spec : forall a b, py_eqb a b = true <-> jeq a b.
Proof.
  induction a as [|x|x|x|s|l IH|o IH] using json_nested; intros b.
  - destruct b; cbn; (split; [intros E; try discriminate; constructor | intros J; inversion J; subst; try reflexivity; discriminate]).
  - rewrite (jeq_num_iff (JBool x) b _ eq_refl). destruct b; cbn;
      (split; [intros E; try discriminate; apply qeqb_true in E; eauto | intros (y & F & E); try discriminate; injection F as <-; apply qeqb_true, E]).
  - rewrite (jeq_num_iff (JInt x) b _ eq_refl). destruct b; cbn;
      (split; [intros E; try discriminate; apply qeqb_true in E; eauto | intros (y & F & E); try discriminate; injection F as <-; apply qeqb_true, E]).
  - rewrite (jeq_num_iff (JFloat x) b _ eq_refl). destruct b; cbn;
      (split; [intros E; try discriminate; apply qeqb_true in E; eauto | intros (y & F & E); try discriminate; injection F as <-; apply qeqb_true, E]).
  - destruct b; cbn; try (split; [discriminate | intros J; inversion J; subst; discriminate]).
    rewrite String.eqb_eq. split; [intros ->; constructor | intros J; inversion J; subst; [discriminate|reflexivity]].
  - destruct b as [| | | | |l'|]; try (split; [cbn; discriminate | intros J; inversion J; subst; discriminate]).
    transitivity (Forall2 jeq l l').
    + cbn. clear -IH. revert l'. induction IH as [|x m Hx Hm IHm]; intros [|y m'].
      * split; [constructor|reflexivity].
      * split; [discriminate|intros F; inversion F].
      * split; [discriminate|intros F; inversion F].
      * rewrite andb_true_iff, Hx, IHm. split; [intros [A B]; constructor; assumption | intros F; inversion F; subst; split; assumption].
    + split; [apply jeq_arr | intros J; inversion J; subst; [discriminate|assumption]].
  - destruct b as [| | | | | |o']; try (split; [cbn; discriminate | intros J; inversion J; subst; discriminate]).
    transitivity (List.length o = List.length o' /\ forall k v, In (k, v) o -> exists w, sget o' k = Some w /\ jeq v w).
    + cbn. rewrite andb_true_iff, Nat.eqb_eq.
      assert (forall p : sdict json, Forall (fun kv => forall b, py_eqb (snd kv) b = true <-> jeq (snd kv) b) p ->
        (((fix eq_obj (o : sdict json) : bool :=
         match o with
         | [] => true
         | (k, v) :: o1 => match sget o' k with Some w => py_eqb v w | None => false end && eq_obj o1
         end) p) = true <-> forall k v, In (k, v) p -> exists w, sget o' k = Some w /\ jeq v w)) as X.
      { clear. intros p H. induction H as [|[k v] p Hx Hp IHp].
        - split; [intros _ k v []|reflexivity].
        - rewrite andb_true_iff, IHp. cbn [snd] in Hx. split.
          + intros [A B] k' v' [E|I]; [|exact (B k' v' I)]. injection E as <- <-.
            destruct (sget o' k) as [w|]; [|discriminate]. exists w. split; [reflexivity|apply Hx, A].
          + intros F. split; [|intros k' v' I; exact (F k' v' (or_intror I))].
            destruct (F k v (or_introl eq_refl)) as (w & -> & J). apply Hx, J. }
      rewrite (X o IH). tauto.
    + split; [intros [A B]; apply jeq_obj; assumption | intros J; inversion J; subst; [discriminate|split; assumption]].
Qed.

Lemma loaded_refl : forall a, loaded a -> jeq a a.
Proof.
  induction a as [|x|x|x|s|l IH|o IH] using json_nested; intros L.
  - constructor.
  - destruct x; (eapply jeq_num; [reflexivity..|reflexivity]).
  - eapply jeq_num; [reflexivity..|reflexivity].
  - eapply jeq_num; [reflexivity..|reflexivity].
  - constructor.
  - constructor. inversion L as [| | | | |l0 F|]; subst. clear L. induction IH as [|x m Hx Hm IHm]; [constructor|].
    inversion F; subst. constructor; auto.
  - inversion L as [| | | | | |o0 N F]; subst. constructor; [reflexivity|]. intros k v I.
    exists v. split; [apply sget_in_nodup; assumption|].
    rewrite Forall_forall in IH, F. exact (IH (k, v) I (F (k, v) I)).
Qed.

(** ** Labels, columns and rows *)
Lemma label_eqb_true : forall a b, label_eqb a b = true <-> a = b.
Proof.
  intros [a|] [b|]; cbn; try (split; [discriminate|intros E; discriminate E]); [|tauto].
  rewrite String.eqb_eq. split; [intros ->; reflexivity | intros E; injection E as <-; reflexivity].
Qed.
Lemma label_eqb_refl : forall a, label_eqb a a = true.
Proof. intros. apply label_eqb_true. reflexivity. Qed.
Lemma in_strs_true : forall s l, in_strs s l = true <-> In s l.
Proof.
  intros s l. unfold in_strs. rewrite existsb_exists. split.
  - intros (x & I & E). apply String.eqb_eq in E. subst. exact I.
  - intros I. exists s. split; [exact I|apply seqb_refl].
Qed.
Lemma labels_eqb_true : forall a b, labels_eqb a b = true <-> a = b.
Proof.
  induction a as [|x a IH]; intros [|y b]; cbn; try (split; [discriminate|intros E; discriminate E]); [tauto|].
  rewrite andb_true_iff, IH, label_eqb_true. split; [intros [-> ->]; reflexivity | intros E; injection E as <- <-; tauto].
Qed.
Lemma strs_eqb_true : forall a b, strs_eqb a b = true <-> a = b.
Proof.
  induction a as [|x a IH]; intros [|y b]; cbn; try (split; [discriminate|intros E; discriminate E]); [tauto|].
  rewrite andb_true_iff, IH, String.eqb_eq. split; [intros [-> ->]; reflexivity | intros E; injection E as <- <-; tauto].
Qed.

Definition col_step (acc : list string) (s : string) : list string := if in_strs s acc then acc else (acc ++ [s])%list.
Lemma col_step_in : forall ks acc s, In s (fold_left col_step ks acc) <-> In s acc \/ In s ks.
Proof.
  induction ks as [|k ks IH]; intros acc s; cbn [fold_left]; [cbn; tauto|].
  rewrite IH. unfold col_step. destruct (in_strs k acc) eqn:E.
  - apply in_strs_true in E. cbn. split; [tauto|]. intros [H|[<-|H]]; tauto.
  - rewrite in_app_iff. cbn. tauto.
Qed.
Lemma cols_in : forall (cs : list cell) acc s,
  In s (fold_left (fun acc c => fold_left col_step (map fst c) acc) cs acc) <-> In s acc \/ exists c, In c cs /\ In s (map fst c).
Proof.
  induction cs as [|c cs IH]; intros acc s; cbn [fold_left].
  - split; [tauto|]. intros [H|(c & [] & _)]. exact H.
  - rewrite IH, col_step_in. split.
    + intros [[H|H]|(c' & I & H)]; [tauto | right; exists c; split; [left; reflexivity|exact H] | right; exists c'; split; [right; exact I|exact H]].
    + intros [H|(c' & [<-|I] & H)]; [tauto|tauto|]. right. exists c'. tauto.
Qed.
Lemma columns_in : forall cs s, In s (columns cs) <-> s <> "geometry" /\ exists c, In c cs /\ In s (map fst c).
Proof.
  intros cs s. unfold columns. rewrite filter_In.
  change (fold_left _ cs []) with (fold_left (fun acc c => fold_left col_step (map fst c) acc) cs []).
  rewrite cols_in, negb_true_iff, String.eqb_neq. cbn. tauto.
Qed.

Lemma indexed_ok : forall m, mesh_ok m -> indexed (f_cells m) = Ok (map (fun c => (geometry_of c, c)) (f_cells m)).
Proof.
  intros m (N & G & _). unfold indexed. destruct (f_cells m) as [|c cs]; [tauto|].
  destruct (G c (or_introl eq_refl)) as (g & E). cbn [existsb]. rewrite E. reflexivity.
Qed.
Lemma geometry_some : forall c g, geometry_of c = Some g <-> sget c "geometry" = Some (JStr g).
Proof.
  intros c g. unfold geometry_of. destruct (sget c "geometry") as [[]|]; split; intros E; try discriminate; injection E as <-; reflexivity.
Qed.
Lemma cell_unique : forall m g c c', mesh_ok m -> cell_at m g c -> cell_at m g c' -> c = c'.
Proof.
  intros m g c c' (_ & _ & _ & N & _) [I E] [I' E']. apply geometry_some in E, E'.
  revert I I' N. generalize (f_cells m). induction l as [|x l IH]; [intros []|].
  cbn [map]. intros [<-|I] [<-|I'] N; [reflexivity| | |]; inversion N; subst.
  - exfalso. apply H1. rewrite E, <- E'. apply in_map, I'.
  - exfalso. apply H1. rewrite E', <- E. apply in_map, I.
  - exact (IH I I' H2).
Qed.
Lemma has_label_cells : forall m g, has_label (Some g) (map (fun c => (geometry_of c, c)) (f_cells m)) = true <-> has_cell m g.
Proof.
  intros m g. unfold has_label. rewrite existsb_exists. split.
  - intros (r & I & E). apply in_map_iff in I. destruct I as (c & <- & I). cbn [fst] in E. apply label_eqb_true in E.
    exists c. split; [exact I|apply geometry_some; congruence].
  - intros (c & I & E). exists (geometry_of c, c). split; [apply (in_map (fun c => (geometry_of c, c))), I|].
    cbn [fst]. apply label_eqb_true. symmetry. apply geometry_some, E.
Qed.

Theorem boundaries_exact : forall m1 m2, mesh_ok m1 -> mesh_ok m2 ->
  exists f, boundaries_frame m1 m2 = Ok f /\
    (forall l, In l (map fst (f_rows f)) <-> exists g, l = Some g /\ has_cell m2 g /\ ~ has_cell m1 g) /\
    NoDup (map fst (f_rows f)) /\
    (forall l vs, In (l, vs) (f_rows f) -> exists g c, l = Some g /\ cell_at m2 g c /\ vs = map (value c) (f_cols f)) /\
    (f_rows f <> [] -> forall s, In s (f_cols f) <-> s <> "geometry" /\ has_attribute m2 s).
Proof.
  intros m1 m2 O1 O2. unfold boundaries_frame. rewrite (indexed_ok m1 O1), (indexed_ok m2 O2). cbn [bind].
  set (rows := filter _ _).
  assert (forall l c, In (l, c) rows <-> In c (f_cells m2) /\ exists g, l = Some g /\ geometry_of c = Some g /\ ~ has_cell m1 g) as R.
  { intros l c. unfold rows. rewrite filter_In, in_map_iff. cbn [fst]. rewrite negb_true_iff. split.
    - intros [(c' & E & I) H]. injection E as <- <-. split; [exact I|].
      destruct O2 as (_ & G & _). destruct (G c' I) as (g & Eg). apply geometry_some in Eg. exists g. rewrite Eg in *.
      repeat split. rewrite <- has_label_cells, H. discriminate.
    - intros (I & g & -> & Eg & H). split; [exists c; rewrite Eg; tauto|].
      destruct (has_label _ _) eqn:E; [|reflexivity]. apply has_label_cells in E. tauto. }
  assert (NoDup (map fst rows)) as ND.
  { unfold rows. destruct O2 as (_ & _ & _ & N & _).
    assert (NoDup (map fst (map (fun c => (geometry_of c, c)) (f_cells m2)))) as N' by (rewrite map_map; exact N).
    revert N'. generalize (map (fun c => (geometry_of c, c)) (f_cells m2)). clear. induction l as [|x l IH]; intros N; [constructor|].
    cbn [map] in N. inversion N; subst. cbn [filter]. destruct (negb _); [|auto]. cbn [map]. constructor; [|auto].
    intros I. apply H1. apply in_map_iff in I. destruct I as (y & E & I). rewrite <- E. apply in_map. apply filter_In in I. tauto. }
  exists (match rows with [] => empty_frame | _ => to_frame (columns (f_cells m2)) rows end).
  split; [destruct rows; reflexivity|].
  assert (map fst (f_rows (match rows with [] => empty_frame | _ => to_frame (columns (f_cells m2)) rows end)) = map fst rows) as L.
  { destruct rows as [|r rows]; [reflexivity|]. unfold to_frame. cbn [f_rows]. rewrite map_map. reflexivity. }
  rewrite L. split; [|split; [exact ND|split]].
  - intros l. rewrite in_map_iff. split.
    + intros ([l' c] & <- & I). apply R in I. destruct I as (I & g & -> & Eg & H). exists g. cbn [fst].
      repeat split; [|exact H]. exists c. split; [exact I|apply geometry_some, Eg].
    + intros (g & -> & (c & I & E) & H). exists (Some g, c). split; [reflexivity|]. apply R. split; [exact I|].
      exists g. repeat split; [apply geometry_some, E|exact H].
  - intros l vs I. assert (exists c, In (l, c) rows /\ vs = map (value c) (columns (f_cells m2)) /\
      f_cols (match rows with [] => empty_frame | _ => to_frame (columns (f_cells m2)) rows end) = columns (f_cells m2)) as (c & Ic & -> & ->).
    { destruct rows as [|r rows]; [destruct I|]. unfold to_frame in *. cbn [f_rows f_cols] in *. apply in_map_iff in I.
      destruct I as ((l' & c) & E & I). cbn [fst snd] in E. injection E as <- <-. exists c. repeat split. exact I. }
    apply R in Ic. destruct Ic as (I' & g & -> & Eg & H). exists g, c. repeat split; [exact I'|apply geometry_some, Eg].
  - intros NE s. assert (f_cols (match rows with [] => empty_frame | _ => to_frame (columns (f_cells m2)) rows end) = columns (f_cells m2)) as ->
      by (destruct rows; [exfalso; apply NE; reflexivity|reflexivity]).
    apply columns_in.
Qed.

(** ** Values *)
Lemma filter_label {A} : forall (rows : list (label * A)) l, NoDup (map fst rows) -> In l (map fst rows) ->
  exists a, filter (fun r => label_eqb l (fst r)) rows = [(l, a)] /\ In (l, a) rows.
Proof.
  induction rows as [|[k a] rows IH]; intros l N I; [destruct I|].
  cbn [map fst] in *. inversion N; subst. cbn [filter fst]. destruct (label_eqb l k) eqn:E.
  - apply label_eqb_true in E. subst k. exists a. split; [|left; reflexivity].
    assert (filter (fun r => label_eqb l (fst r)) rows = []) as ->; [|reflexivity].
    clear -H1. induction rows as [|[k b] rows IH]; [reflexivity|]. cbn [map fst filter] in *.
    destruct (label_eqb l k) eqn:E; [apply label_eqb_true in E; subst; exfalso; apply H1; left; reflexivity|].
    apply IH. intros I. apply H1. right. exact I.
  - destruct I as [->|I]; [rewrite label_eqb_refl in E; discriminate|].
    destruct (IH l H2 I) as (b & F & J). exists b. split; [exact F|right; exact J].
Qed.
Lemma loc_spec {A} : forall (rows : list (label * A)) ls, NoDup (map fst rows) ->
  (forall l, In l ls -> In l (map fst rows)) ->
  map fst (loc rows ls) = ls /\ forall l a, In (l, a) (loc rows ls) <-> In l ls /\ In (l, a) rows.
Proof.
  intros rows ls N. induction ls as [|l ls IH]; intros S.
  - split; [reflexivity|]. intros l a. cbn. tauto.
  - destruct IH as [M E]; [intros x I; apply S; right; exact I|].
    destruct (filter_label rows l N (S l (or_introl eq_refl))) as (a & F & J).
    unfold loc. cbn [flat_map]. rewrite F. cbn [app map fst]. split; [unfold loc in M; rewrite M; reflexivity|].
    intros l' a'. cbn [In]. unfold loc in E. rewrite E. split.
    + intros [Q|[I K]]; [injection Q as <- <-; tauto|tauto].
    + intros [[<-|I] K]; [|tauto]. left.
      assert (In (l, a') (filter (fun r => label_eqb l (fst r)) rows)) as G by (apply filter_In; split; [exact K|apply label_eqb_refl]).
      rewrite F in G. destruct G as [G|[]]. exact G.
Qed.
Lemma unique_labels_in : forall ls l, In l (unique_labels ls) <-> In l ls.
Proof.
  induction ls as [|x ls IH]; intros l; cbn [unique_labels In]; [tauto|].
  rewrite filter_In, IH, negb_true_iff. split; [tauto|]. intros [<-|I]; [tauto|].
  destruct (label_eqb x l) eqn:E; [apply label_eqb_true in E; tauto|tauto].
Qed.
Lemma unique_labels_nodup : forall ls, NoDup (unique_labels ls).
Proof.
  induction ls as [|x ls IH]; cbn [unique_labels]; constructor.
  - rewrite filter_In, label_eqb_refl. intros [_ E]. discriminate E.
  - apply NoDup_filter, IH.
Qed.
Lemma combine_labels {A B} : forall (t1 : list (label * A)) (t2 : list (label * B)), map fst t1 = map fst t2 -> NoDup (map fst t1) ->
  forall p, In p (combine t1 t2) <-> exists l a b, p = ((l, a), (l, b)) /\ In (l, a) t1 /\ In (l, b) t2.
Proof.
  induction t1 as [|[l a] t1 IH]; intros [|[l' b] t2] M N p; cbn [map fst] in M; try discriminate M.
  - cbn. split; [intros []|intros (l & a & b & _ & [] & _)].
  - injection M as <- M. cbn [map fst] in N. inversion N; subst. cbn [combine In]. rewrite (IH t2 M H2). split.
    + intros [<-|(k & a' & b' & -> & I & J)]; [exists l, a, b; repeat split; left; reflexivity|].
      exists k, a', b'. repeat split; right; assumption.
    + intros (k & a' & b' & -> & [E|I] & [F|J]).
      * injection E as <- <-. injection F as <-. left. reflexivity.
      * injection E as <- <-. exfalso. apply H1. rewrite M. change l with (fst (l, b')). apply in_map, J.
      * injection F as <- <-. exfalso. apply H1. change l with (fst (l, a')). apply in_map, I.
      * right. exists k, a', b'. repeat split; assumption.
Qed.

Lemma float_col_spec : forall m s, float_col (f_cells m) s = true <-> float_column m s.
Proof.
  intros m s. unfold float_col, float_column. rewrite andb_true_iff, orb_true_iff, andb_true_iff, forallb_forall, !existsb_exists.
  assert (forall P : json -> Prop, (exists v, In v (map (fun c => value c s) (f_cells m)) /\ P v) <-> exists c, In c (f_cells m) /\ P (value c s)) as X.
  { intros P. split.
    - intros (v & I & H). apply in_map_iff in I. destruct I as (c & <- & I). eauto.
    - intros (c & I & H). exists (value c s). split; [apply (in_map (fun c => value c s)), I|exact H]. }
  rewrite !X. split.
  - intros [A B]. split.
    + intros c I. specialize (A (value c s) (in_map (fun c => value c s) _ c I)). destruct (value c s); try discriminate; exact Logic.I.
    + destruct B as [(c & I & E)|[(c & I & E) (c' & I' & E')]].
      * left. destruct (value c s) eqn:V; try discriminate. eauto.
      * right. split; [destruct (value c s) eqn:V; try discriminate; eauto | destruct (value c' s) eqn:V; try discriminate; eauto].
  - intros [A B]. split.
    + intros v I. apply in_map_iff in I. destruct I as (c & <- & I). specialize (A c I). destruct (value c s); tauto.
    + destruct B as [(c & q & I & E)|[(c & z & I & E) (c' & I' & E')]].
      * left. exists c. rewrite E. tauto.
      * right. split; [exists c; rewrite E; tauto | exists c'; rewrite E'; tauto].
Qed.
Lemma floats_list : forall l, forallb is_float l = true -> exists qs, l = map JFloat qs.
Proof.
  induction l as [|x l IH]; intros H; [exists []; reflexivity|]. cbn [forallb] in H. apply andb_true_iff in H. destruct H as [A B].
  destruct (IH B) as (qs & ->). destruct x; try discriminate. exists (q :: qs). reflexivity.
Qed.
Lemma floats_list_true : forall qs, forallb is_float (map JFloat qs) = true.
Proof. induction qs; [reflexivity|]. cbn. exact IHqs. Qed.
Lemma rounded_seen : forall m s v v', seen m s v v' <-> v' = rounded (f_cells m) s v.
Proof.
  intros m s v v'. unfold seen, rounded. destruct (float_col (f_cells m) s) eqn:E.
  - apply float_col_spec in E. unfold round_float, tolerance. split.
    + intros [A _]. specialize (A E). rewrite number_eq in A. destruct (float_of v); exact A.
    + intros ->. split; [intros _; rewrite number_eq; destruct (float_of v); reflexivity|tauto].
  - assert (~ float_column m s) as N by (rewrite <- float_col_spec, E; discriminate).
    assert (forall qs, map (round_float tolerance) (map JFloat qs) = map (fun q => JFloat (sigfig_float q 4)) qs) as R
      by (intros qs; rewrite map_map; reflexivity).
    split.
    + intros [_ B]. destruct (B N) as [B1 B2]. destruct v; try (apply B2; intros l; discriminate).
      destruct (forallb is_float l) eqn:F.
      * destruct (floats_list l F) as (qs & ->). rewrite R. apply B1. reflexivity.
      * apply B2. intros qs Q. injection Q as ->. rewrite floats_list_true in F. discriminate.
    + intros ->. split; [tauto|]. intros _. split.
      * intros l ->. rewrite floats_list_true, R. reflexivity.
      * intros H. destruct v; try reflexivity. destruct (forallb is_float l) eqn:F; [|reflexivity].
        destruct (floats_list l F) as (qs & ->). exfalso. exact (H qs eq_refl).
Qed.
Lemma same_value_spec : forall v w, same_value v w = true <-> jeq v w.
Proof.
  intros v w. unfold same_value. rewrite orb_true_iff, andb_true_iff, py_eqb_spec. split; [|tauto].
  intros [J|[A B]]; [exact J|]. destruct v, w; try discriminate. constructor.
Qed.
Lemma row_same_map {A} : forall (f g : A -> json) l, row_same (map f l) (map g l) = true <-> forall x, In x l -> jeq (f x) (g x).
Proof.
  intros f g l. unfold row_same. rewrite forallb_forall. split.
  - intros H x I. apply same_value_spec. apply (H (f x, g x)). clear H. induction l as [|y l IH]; [destruct I|].
    cbn. destruct I as [->|I]; [left; reflexivity|right; exact (IH I)].
  - intros H [a b] I. cbn [fst snd]. apply same_value_spec.
    assert (exists x, In x l /\ a = f x /\ b = g x) as (x & Ix & -> & ->).
    { clear H. induction l as [|y l IH]; [destruct I|]. destruct I as [E|I]; [injection E as <- <-; exists y; cbn; tauto|].
      destruct (IH I) as (x & Ix & E). exists x. split; [right; exact Ix|exact E]. }
    exact (H x Ix).
Qed.

Theorem values_exact : forall m1 m2, mesh_ok m1 -> mesh_ok m2 ->
  exists f, values_frame m1 m2 = Ok f /\
    (forall l, In l (map fst (f_rows f)) <->
       exists g s, l = Some g /\ s <> "geometry" /\ has_attribute m1 s /\ has_attribute m2 s /\ disagree m1 m2 g s) /\
    (forall s, In s (f_cols f) <-> s <> "geometry" /\ has_attribute m1 s /\ has_attribute m2 s).
Proof.
  intros m1 m2 O1 O2. unfold values_frame. rewrite (indexed_ok m1 O1), (indexed_ok m2 O2). cbn [bind].
  set (r1 := map (fun c => (geometry_of c, c)) (f_cells m1)). set (r2 := map (fun c => (geometry_of c, c)) (f_cells m2)).
  set (common := intersection r1 r2). set (cols := filter _ (columns (f_cells m1))).
  assert (NoDup (map fst r1)) as N1 by (unfold r1; rewrite map_map; apply O1).
  assert (NoDup (map fst r2)) as N2 by (unfold r2; rewrite map_map; apply O2).
  assert (forall l, In l common <-> In l (map fst r1) /\ In l (map fst r2)) as C.
  { intros l. unfold common, intersection. rewrite unique_labels_in, filter_In, existsb_exists. split.
    - intros [A (r & I & E)]. apply label_eqb_true in E. subst l. split; [exact A|apply in_map, I].
    - intros [A B]. split; [exact A|]. apply in_map_iff in B. destruct B as (r & <- & I). exists r. split; [exact I|apply label_eqb_refl]. }
  destruct (loc_spec r1 common N1) as [M1 L1]; [intros l I; apply C, I|].
  destruct (loc_spec r2 common N2) as [M2 L2]; [intros l I; apply C, I|].
  set (f1 := fun r : label * cell => (fst r, map (fun s => rounded (f_cells m1) s (value (snd r) s)) cols)).
  set (f2 := fun r : label * cell => (fst r, map (fun s => rounded (f_cells m2) s (value (snd r) s)) cols)).
  set (t1 := map f1 (loc r1 common)). set (t2 := map f2 (loc r2 common)).
  assert (map fst t1 = common) as T1 by (unfold t1; rewrite map_map; exact M1).
  assert (map fst t2 = common) as T2 by (unfold t2; rewrite map_map; exact M2).
  assert (labels_eqb (map fst t1) (map fst t2) = true) as -> by (apply labels_eqb_true; congruence).
  assert (forall s, In s cols <-> s <> "geometry" /\ has_attribute m1 s /\ has_attribute m2 s) as K.
  { intros s. unfold cols. rewrite filter_In, in_strs_true, !columns_in. unfold has_attribute. tauto. }
  set (diff := map _ (filter _ _)).
  assert (forall m l a, mesh_ok m -> (In (l, a) (map (fun c => (geometry_of c, c)) (f_cells m)) <-> exists g, l = Some g /\ cell_at m g a)) as Row.
  { intros m l a O. rewrite in_map_iff. split.
    - intros (c & E & I). injection E as <- <-. destruct O as (_ & G & _). destruct (G c I) as (g & Eg). exists g.
      split; [apply geometry_some, Eg|split; assumption].
    - intros (g & -> & I & E). exists a. apply geometry_some in E. rewrite E. tauto. }
  assert (forall l, In l diff <-> exists g c1 c2, l = Some g /\ cell_at m1 g c1 /\ cell_at m2 g c2 /\
    exists s, In s cols /\ ~ jeq (rounded (f_cells m1) s (value c1 s)) (rounded (f_cells m2) s (value c2 s))) as D.
  { intros l. unfold diff. rewrite in_map_iff.
    assert (forall c1 c2, row_same (map (fun s => rounded (f_cells m1) s (value c1 s)) cols)
                                   (map (fun s => rounded (f_cells m2) s (value c2 s)) cols) = false <->
      exists s, In s cols /\ ~ jeq (rounded (f_cells m1) s (value c1 s)) (rounded (f_cells m2) s (value c2 s))) as RS.
    { intros c1 c2. split.
      - intros F. set (h1 := fun s => rounded (f_cells m1) s (value c1 s)) in *. set (h2 := fun s => rounded (f_cells m2) s (value c2 s)) in *.
        assert (forallb (fun s => same_value (h1 s) (h2 s)) cols = false) as FB.
        { destruct (forallb _ _) eqn:E; [|reflexivity]. rewrite forallb_forall in E.
          assert (row_same (map h1 cols) (map h2 cols) = true) as X; [|congruence].
          apply row_same_map. intros x I. apply same_value_spec, E, I. }
        assert (existsb (fun s => negb (same_value (h1 s) (h2 s))) cols = true) as EB.
        { clear -FB. induction cols as [|x l IH]; [discriminate|]. cbn in *. destruct (same_value (h1 x) (h2 x)); [exact (IH FB)|reflexivity]. }
        apply existsb_exists in EB. destruct EB as (s & I & E). exists s. split; [exact I|].
        rewrite <- same_value_spec. fold (h1 s) (h2 s). destruct (same_value (h1 s) (h2 s)); [discriminate E|discriminate].
      - intros (s & I & J). destruct (row_same _ _) eqn:E; [|reflexivity]. exfalso. apply J. rewrite row_same_map in E. exact (E s I). }
    assert (forall p, In p (combine t1 t2) <-> exists g c1 c2, p = (f1 (Some g, c1), f2 (Some g, c2)) /\ cell_at m1 g c1 /\ cell_at m2 g c2) as CB.
    { intros p. rewrite combine_labels; [|congruence|rewrite T1; apply unique_labels_nodup]. split.
      - intros (k & a & b & -> & Ia & Ib). unfold t1, t2 in *. apply in_map_iff in Ia, Ib.
        destruct Ia as ([k1 c1] & E1 & I1). destruct Ib as ([k2 c2] & E2 & I2).
        apply L1 in I1. apply L2 in I2. destruct I1 as [_ I1]. destruct I2 as [_ I2].
        unfold f1, f2 in E1, E2. cbn [fst snd] in E1, E2. injection E1 as -> <-. injection E2 as -> <-.
        apply (Row m1 _ _ O1) in I1. apply (Row m2 _ _ O2) in I2. destruct I1 as (g & -> & A1). destruct I2 as (g' & E & A2). injection E as <-.
        exists g, c1, c2. repeat split; try apply A1; apply A2.
      - intros (g & c1 & c2 & -> & A1 & A2). exists (Some g). do 2 eexists. split; [reflexivity|].
        assert (In (Some g, c1) r1) as I1 by (apply (Row m1 _ _ O1); eauto).
        assert (In (Some g, c2) r2) as I2 by (apply (Row m2 _ _ O2); eauto).
        assert (In (Some g) common) as Ic by (apply C; split; [apply (in_map fst _ _ I1)|apply (in_map fst _ _ I2)]).
        split; [apply (in_map f1 _ (Some g, c1)), L1; tauto | apply (in_map f2 _ (Some g, c2)), L2; tauto]. }
    split.
    - intros (p & <- & I). apply filter_In in I. destruct I as [I E]. apply CB in I. destruct I as (g & c1 & c2 & -> & A1 & A2).
      exists g, c1, c2. apply negb_true_iff in E. split; [reflexivity|]. split; [exact A1|]. split; [exact A2|]. exact (proj1 (RS c1 c2) E).
    - intros (g & c1 & c2 & -> & A1 & A2 & X). exists (f1 (Some g, c1), f2 (Some g, c2)). split; [reflexivity|].
      apply filter_In. split; [apply CB; exists g, c1, c2; split; [reflexivity|split; [exact A1|exact A2]]|]. apply negb_true_iff. exact (proj2 (RS c1 c2) X). }
  assert (map fst (loc t2 diff) = diff) as LD.
  { apply loc_spec; [rewrite T2; apply unique_labels_nodup|]. intros l I. apply D in I. destruct I as (g & c1 & c2 & -> & A1 & A2 & _).
    rewrite T2. apply C. split; [apply (in_map fst _ (Some g, c1)), (Row m1 _ _ O1); eauto | apply (in_map fst _ (Some g, c2)), (Row m2 _ _ O2); eauto]. }
  eexists. split; [reflexivity|]. cbn [f_rows f_cols]. split; [|exact K].
  intros l. rewrite LD, D. split.
  - intros (g & c1 & c2 & -> & A1 & A2 & s & I & J). apply K in I. exists g, s. repeat split; try apply I.
    exists c1, c2, (rounded (f_cells m1) s (value c1 s)), (rounded (f_cells m2) s (value c2 s)).
    split; [exact A1|]. split; [exact A2|]. split; [apply rounded_seen; reflexivity|]. split; [apply rounded_seen; reflexivity|exact J].
  - intros (g & s & -> & S & H1 & H2 & (c1 & c2 & v1 & v2 & A1 & A2 & V1 & V2 & J)).
    apply rounded_seen in V1, V2. subst v1 v2. exists g, c1, c2. repeat split; try apply A1; try apply A2.
    exists s. split; [apply K; tauto|exact J].
Qed.

(** ** Attributes *)
Definition geo (c : cell) : string := match geometry_of c with Some g => g | None => "" end.
Lemma sset_new {V} : forall (d : sdict V) k v, ~ In k (map fst d) -> sset d k v = (d ++ [(k, v)])%list.
Proof.
  induction d as [|[k' v'] d IH]; intros k v N; [reflexivity|]. cbn [sset]. destruct (String.eqb k k') eqn:E.
  - apply String.eqb_eq in E. exfalso. apply N. left. symmetry. exact E.
  - cbn [app]. rewrite IH; [reflexivity|]. intros I. apply N. right. exact I.
Qed.
Lemma by_geometry_ok : forall m, mesh_ok m -> by_geometry (f_cells m) = Ok (map (fun c => (geo c, c)) (f_cells m)) /\
  NoDup (map fst (map (fun c => (geo c, c)) (f_cells m))).
Proof.
  intros m (_ & G & _ & N & _).
  assert (forall c, In c (f_cells m) -> sget c "geometry" = Some (JStr (geo c))) as GG.
  { intros c I. destruct (G c I) as (g & E). unfold geo. pose proof E as E'. apply geometry_some in E'. rewrite E'. exact E. }
  assert (NoDup (map geo (f_cells m))) as N'.
  { revert N GG. clear. generalize (f_cells m). induction l as [|c l IH]; intros N GG; [constructor|].
    cbn [map] in *. inversion N; subst. constructor; [|apply IH; [assumption|intros x I; apply GG; right; exact I]].
    intros I. apply H1. apply in_map_iff in I. destruct I as (x & E & I). apply in_map_iff. exists x. split; [|exact I].
    transitivity (Some (geo x)); [apply geometry_some, GG; right; exact I|]. rewrite E. symmetry. apply geometry_some, GG. left. reflexivity. }
  split; [|rewrite map_map; exact N'].
  unfold by_geometry.
  assert (forall cs acc, (forall c, In c cs -> sget c "geometry" = Some (JStr (geo c))) ->
    NoDup (map fst acc ++ map geo cs) ->
    foldM (fun d c => match sget c "geometry" with Some (JStr s) => Ok (sset d s c) | Some _ => Err TypeError | None => Err KeyError end) acc cs
    = Ok (acc ++ map (fun c => (geo c, c)) cs)%list) as X.
  { induction cs as [|c cs IH]; intros acc H ND; [cbn; rewrite app_nil_r; reflexivity|].
    cbn [foldM]. rewrite (H c (or_introl eq_refl)). cbn [bind]. rewrite sset_new.
    - rewrite IH; [cbn [map]; rewrite <- app_assoc; reflexivity | intros x I; apply H; right; exact I |].
      rewrite map_app, <- app_assoc. exact ND.
    - cbn [map] in ND. apply NoDup_remove_2 in ND. intros I. apply ND. apply in_or_app. left. exact I. }
  apply (X (f_cells m) []); [exact GG|exact N'].
Qed.

Theorem attributes_exact : forall m1 m2, mesh_ok m1 -> mesh_ok m2 ->
  exists f, attributes_frame m1 m2 = Ok f /\
    forall l, In l (map fst (f_rows f)) <->
      exists g c1 c2, l = Some g /\ cell_at m1 g c1 /\ cell_at m2 g c2 /\ map fst c1 <> map fst c2.
Proof.
  intros m1 m2 O1 O2. unfold attributes_frame.
  destruct (by_geometry_ok m1 O1) as [-> N1]. destruct (by_geometry_ok m2 O2) as [-> N2]. cbn [bind].
  set (rows := flat_map _ _).
  assert (forall m c, mesh_ok m -> In c (f_cells m) -> geometry_of c = Some (geo c)) as GG.
  { intros m c (_ & G & _) I. destruct (G c I) as (g & E). apply geometry_some in E. unfold geo. rewrite E. reflexivity. }
  assert (forall c2, In c2 rows <-> exists g c1, cell_at m1 g c1 /\ cell_at m2 g c2 /\ map fst c1 <> map fst c2) as R.
  { intros c2. unfold rows. rewrite in_flat_map. split.
    - intros ((g & c1) & I1 & H). apply in_map_iff in I1. destruct I1 as (c & E & I1). injection E as <- <-. cbn [fst snd] in H.
      destruct (sget _ (geo c)) as [c'|] eqn:S; [|destruct H].
      destruct (strs_eqb (map fst c) (map fst c')) eqn:E; [destruct H|]. destruct H as [<-|[]].
      apply sget_in in S. apply in_map_iff in S. destruct S as (x & Ex & Ix). injection Ex as Eg ->.
      exists (geo c), c. split; [split; [exact I1|apply geometry_some, (GG m1 c O1 I1)]|]. split.
      + split; [exact Ix|]. apply geometry_some. rewrite (GG m2 c' O2 Ix), Eg. reflexivity.
      + intros Q. apply strs_eqb_true in Q. congruence.
    - intros (g & c1 & [I1 E1] & [I2 E2] & N). exists (geo c1, c1). split; [apply (in_map (fun c => (geo c, c))), I1|].
      cbn [fst snd]. apply geometry_some in E1, E2. pose proof (GG m1 c1 O1 I1) as G1. pose proof (GG m2 c2 O2 I2) as G2.
      assert (geo c1 = geo c2) as -> by congruence.
      rewrite (sget_in_nodup _ (geo c2) c2); [|exact N2|apply (in_map (fun c => (geo c, c))), I2].
      destruct (strs_eqb (map fst c1) (map fst c2)) eqn:E; [apply strs_eqb_true in E; tauto|left; reflexivity]. }
  exists (match rows with [] => empty_frame | _ => to_frame (columns rows) (map (fun c => (geometry_of c, c)) rows) end).
  split; [destruct rows; reflexivity|]. intros l.
  assert (map fst (f_rows match rows with [] => empty_frame | _ => to_frame (columns rows) (map (fun c => (geometry_of c, c)) rows) end)
          = map geometry_of rows) as ->.
  { destruct rows as [|r rs]; [reflexivity|]. unfold to_frame. cbn [f_rows]. rewrite !map_map. reflexivity. }
  rewrite in_map_iff. split.
  - intros (c2 & <- & I). apply R in I. destruct I as (g & c1 & A1 & A2 & N). exists g, c1, c2.
    split; [apply geometry_some, A2|]. tauto.
  - intros (g & c1 & c2 & -> & A1 & A2 & N). exists c2. split; [apply geometry_some, A2|]. apply R. exists g, c1. tauto.
Qed.

(** ** Neighbour graphs *)
Lemma zinsert_perm : forall x l, Permutation (x :: l) (zinsert x l).
Proof.
  induction l as [|y l IH]; [reflexivity|]. cbn [zinsert]. destruct (x <=? y); [reflexivity|].
  rewrite perm_swap. constructor. exact IH.
Qed.
Lemma zsort_perm : forall l, Permutation l (zsort l).
Proof. induction l as [|x l IH]; [reflexivity|]. cbn. rewrite <- zinsert_perm. constructor. exact IH. Qed.
Inductive sorted : list Z -> Prop :=
| sorted_nil : sorted [] | sorted_cons x l : (forall y, In y l -> x <= y) -> sorted l -> sorted (x :: l).
Lemma zinsert_sorted : forall x l, sorted l -> sorted (zinsert x l).
Proof.
  induction 1 as [|y l H S IH]; [constructor; [intros y []|constructor]|]. cbn [zinsert]. destruct (x <=? y) eqn:E.
  - apply Z.leb_le in E. constructor; [|constructor; assumption]. intros z [<-|I]; [exact E|]. specialize (H z I). lia.
  - apply Z.leb_gt in E. constructor; [|exact IH]. intros z I.
    apply (Permutation_in z (Permutation_sym (zinsert_perm x l))) in I. destruct I as [<-|I]; [lia|exact (H z I)].
Qed.
Lemma zsort_sorted : forall l, sorted (zsort l).
Proof. induction l; [constructor|]. apply zinsert_sorted. exact IHl. Qed.
Lemma sorted_unique : forall a b, sorted a -> sorted b -> Permutation a b -> a = b.
Proof.
  intros a b Sa. revert b. induction Sa as [|x a H S IH]; intros b Sb P.
  - symmetry. apply Permutation_nil, P.
  - destruct Sb as [|y b Hb Sb]; [apply Permutation_sym, Permutation_nil in P; discriminate|].
    assert (x = y) as ->.
    { pose proof (Permutation_in x P (or_introl eq_refl)) as Ix. pose proof (Permutation_in y (Permutation_sym P) (or_introl eq_refl)) as Iy.
      destruct Ix as [->|Ix]; [reflexivity|]. destruct Iy as [->|Iy]; [reflexivity|].
      specialize (H y Iy). specialize (Hb x Ix). lia. }
    f_equal. apply IH; [exact Sb|]. apply Permutation_cons_inv in P. exact P.
Qed.
Lemma zs_eqb_true : forall a b, zs_eqb a b = true <-> a = b.
Proof.
  induction a as [|x a IH]; intros [|y b]; cbn; try (split; [discriminate|intros E; discriminate E]); [tauto|].
  rewrite andb_true_iff, IH, Z.eqb_eq. split; [intros [-> ->]; reflexivity | intros E; injection E as <- <-; tauto].
Qed.
Lemma sorted_same : forall a b, zs_eqb (zsort a) (zsort b) = true <-> Permutation a b.
Proof.
  intros a b. rewrite zs_eqb_true. split.
  - intros E. rewrite (zsort_perm a), E. symmetry. apply zsort_perm.
  - intros P. apply sorted_unique; [apply zsort_sorted..|]. rewrite <- (zsort_perm a), P. apply zsort_perm.
Qed.
Lemma neighbours_same_spec : forall a b, NoDup (map fst a) -> NoDup (map fst b) -> neighbours_same a b = true <-> same_neighbours a b.
Proof.
  intros a b Na Nb. unfold neighbours_same, same_neighbours. rewrite andb_true_iff, Nat.eqb_eq, forallb_forall. split.
  - intros [L F] d.
    assert (forall k, In k (map fst a) -> In k (map fst b)) as Sub.
    { intros k I. apply in_map_iff in I. destruct I as ([k' l] & <- & I). specialize (F _ I). cbn [fst snd] in *.
      destruct (sget b k') eqn:E; [|discriminate]. apply sget_in in E. apply (in_map fst) in E. exact E. }
    assert (forall k, In k (map fst b) -> In k (map fst a)) as Sup.
    { apply NoDup_length_incl; [exact Na|rewrite !map_length; lia|exact Sub]. }
    destruct (sget a d) as [l|] eqn:Ea.
    + apply sget_in in Ea. specialize (F _ Ea). cbn [fst snd] in F. destruct (sget b d); [|discriminate]. apply sorted_same, F.
    + destruct (sget b d) as [l|] eqn:Eb; [|exact I]. apply sget_in in Eb. apply (in_map fst) in Eb. apply Sup in Eb.
      apply sget_none in Ea. tauto.
  - intros H. split.
    + assert (incl (map fst a) (map fst b)) as I1.
      { intros k I. apply in_map_iff in I. destruct I as ([k' l] & <- & I). cbn [fst].
        specialize (H k'). rewrite (sget_in_nodup a k' l Na I) in H. destruct (sget b k') eqn:E; [|tauto].
        apply sget_in in E. apply (in_map fst) in E. exact E. }
      assert (incl (map fst b) (map fst a)) as I2.
      { intros k I. apply in_map_iff in I. destruct I as ([k' l] & <- & I). cbn [fst].
        specialize (H k'). rewrite (sget_in_nodup b k' l Nb I) in H. destruct (sget a k') eqn:E; [|tauto].
        apply sget_in in E. apply (in_map fst) in E. exact E. }
      apply NoDup_incl_length in I1; [|exact Na]. apply NoDup_incl_length in I2; [|exact Nb]. rewrite !map_length in *. lia.
    + intros [k l] I. cbn [fst snd]. specialize (H k). rewrite (sget_in_nodup a k l Na I) in H.
      destruct (sget b k); [|tauto]. apply sorted_same, H.
Qed.

Theorem graph_exact_report : forall m1 m2, mesh_ok m1 -> mesh_ok m2 -> has_attribute m2 "id" ->
  exists ls, graph_labels m1 m2 = Ok ls /\
    forall l, In l ls <-> exists g c n d1 d2, l = Some g /\ cell_at m2 g c /\ sget c "id" = Some (JStr n) /\
      sget (f_graph m1) n = Some d1 /\ sget (f_graph m2) n = Some d2 /\ ~ same_neighbours d1 d2.
Proof.
  intros m1 m2 O1 O2 Id. unfold graph_labels. rewrite (indexed_ok m2 O2). cbn [bind].
  assert (in_strs "id" (columns (f_cells m2)) = true) as -> by (apply in_strs_true, columns_in; split; [discriminate|exact Id]).
  set (r2 := map (fun c => (geometry_of c, c)) (f_cells m2)).
  set (step := fun acc nv => _).
  assert (forall nodes acc, exists ls, foldM step acc nodes = Ok ls /\
    forall l, In l ls <-> In l acc \/ exists n d2 d1 r, In (n, d2) nodes /\ sget (f_graph m1) n = Some d1 /\ neighbours_same d1 d2 = false /\
       In r r2 /\ py_eqb (value (snd r) "id") (JStr n) = true /\ l = fst r) as X.
  { induction nodes as [|[n d2] nodes IH]; intros acc.
    - exists acc. split; [reflexivity|]. intros l. split; [tauto|]. intros [H|(n & d2 & d1 & r & [] & _)]. exact H.
    - cbn [foldM]. unfold step at 1. cbn [fst snd]. destruct (sget (f_graph m1) n) as [d1|] eqn:E1.
      + destruct (neighbours_same d1 d2) eqn:E.
        * cbn [bind]. destruct (IH acc) as (ls & F & H). exists ls. split; [exact F|]. intros l. rewrite H. split.
          -- intros [A|(n' & d2' & d1' & r & I & A)]; [tauto|]. right. exists n', d2', d1', r. split; [right; exact I|exact A].
          -- intros [A|(n' & d2' & d1' & r & [Q|I] & A)]; [tauto| |right; exists n', d2', d1', r; tauto].
             injection Q as <- <-. destruct A as (A & B & _). congruence.
        * cbn [bind]. destruct (IH (acc ++ map fst (filter (fun r => py_eqb (value (snd r) "id") (JStr n)) r2))%list) as (ls & F & H).
          exists ls. split; [exact F|]. intros l. rewrite H, in_app_iff. split.
          -- intros [[A|A]|(n' & d2' & d1' & r & I & A)]; [tauto| |right; exists n', d2', d1', r; split; [right; exact I|exact A]].
             right. apply in_map_iff in A. destruct A as (r & <- & I). apply filter_In in I. exists n, d2, d1, r.
             split; [left; reflexivity|]. tauto.
          -- intros [A|(n' & d2' & d1' & r & [Q|I] & A)]; [tauto| |right; exists n', d2', d1', r; tauto].
             injection Q as <- <-. destruct A as (_ & _ & A & B & ->). left. right. apply in_map. apply filter_In. tauto.
      + cbn [bind]. destruct (IH acc) as (ls & F & H). exists ls. split; [exact F|]. intros l. rewrite H. split.
        -- intros [A|(n' & d2' & d1' & r & I & A)]; [tauto|]. right. exists n', d2', d1', r. split; [right; exact I|exact A].
        -- intros [A|(n' & d2' & d1' & r & [Q|I] & A)]; [tauto| |right; exists n', d2', d1', r; tauto].
           injection Q as <- <-. destruct A as (A & _). congruence. }
  destruct (X (f_graph m2) []) as (ls & F & H). exists ls. split; [exact F|]. intros l. rewrite H. clear X H F.
  destruct O1 as (_ & _ & _ & _ & NG1 & ND1). pose proof O2 as (_ & G2 & _ & _ & NG2 & ND2). split.
  - intros [[]|(n & d2 & d1 & r & I & E1 & E & Ir & P & ->)].
    unfold r2 in Ir. apply in_map_iff in Ir. destruct Ir as (c & <- & Ic). cbn [fst snd] in *.
    destruct (G2 c Ic) as (g & Eg). exists g, c, n, d1, d2.
    split; [apply geometry_some, Eg|]. split; [split; assumption|]. split.
    { unfold value in P. destruct (sget c "id") as [v|]; [|discriminate]. apply py_eqb_spec in P. inversion P; subst; [discriminate|reflexivity]. }
    split; [exact E1|]. split; [apply sget_in_nodup; assumption|].
    rewrite <- neighbours_same_spec; [congruence|apply (ND1 n), sget_in, E1|exact (ND2 n d2 I)].
  - intros (g & c & n & d1 & d2 & -> & [Ic Eg] & Ei & E1 & E2 & N). right. exists n, d2, d1, (geometry_of c, c).
    split; [apply sget_in, E2|]. split; [exact E1|]. split.
    { destruct (neighbours_same d1 d2) eqn:E; [|reflexivity]. exfalso. apply N.
      apply neighbours_same_spec; [apply (ND1 n), sget_in, E1 | apply (ND2 n), sget_in, E2 | exact E]. }
    split; [apply (in_map (fun c => (geometry_of c, c))), Ic|]. cbn [fst snd]. split; [|symmetry; apply geometry_some, Eg].
    unfold value. rewrite Ei. apply py_eqb_spec. constructor.
Qed.

(** ** A mesh against itself *)
Lemma loaded_value : forall m c s, mesh_ok m -> In c (f_cells m) -> loaded (value c s).
Proof.
  intros m c s (_ & _ & L & _) I. specialize (L c I). inversion L as [| | | | | |o N F]; subst. unfold value.
  destruct (sget c s) eqn:E; [|constructor]. apply sget_in in E. rewrite Forall_forall in F. exact (F _ E).
Qed.
Lemma loaded_rounded : forall cs s v, loaded v -> loaded (rounded cs s v).
Proof.
  intros cs s v L. unfold rounded. assert (forall x, loaded x -> loaded (round_float tolerance x)) as R.
  { intros x Lx. unfold round_float. destruct (float_of x); [constructor|exact Lx]. }
  destruct (float_col cs s); [apply R, L|]. destruct v; try exact L. destruct (forallb is_float l); [|exact L].
  inversion L as [| | | | |l0 F|]; subst. constructor. apply Forall_map. revert F. apply Forall_impl. exact R.
Qed.
Lemma same_neighbours_refl : forall d, same_neighbours d d.
Proof. intros d k. destruct (sget d k); [reflexivity|exact I]. Qed.
Theorem self_boundaries : forall m, mesh_ok m -> boundaries_frame m m = Ok empty_frame.
Proof.
  intros m O. destruct (boundaries_exact m m O O) as (f & E & L & _). rewrite E.
  unfold boundaries_frame in E. rewrite (indexed_ok m O) in E. cbn [bind] in E.
  destruct (filter _ _) as [|r rows]; [symmetry; exact E|]. exfalso. injection E as <-.
  specialize (L (fst r)). destruct L as [L _]. destruct L as (g & _ & A & B); [left; reflexivity|tauto].
Qed.
Theorem self_values : forall m, mesh_ok m -> exists f, values_frame m m = Ok f /\ f_rows f = [].
Proof.
  intros m O. destruct (values_exact m m O O) as (f & E & L & _). exists f. split; [exact E|].
  destruct (f_rows f) as [|r rows]; [reflexivity|]. exfalso.
  destruct (L (fst r)) as [L1 _]. destruct L1 as (g & s & _ & _ & _ & _ & (c1 & c2 & v1 & v2 & A1 & A2 & V1 & V2 & J)); [left; reflexivity|].
  pose proof (cell_unique m g c1 c2 O A1 A2). subst c2. apply rounded_seen in V1, V2. subst v1 v2.
  apply J, loaded_refl, loaded_rounded. exact (loaded_value m c1 s O (proj1 A1)).
Qed.
Theorem self_attributes : forall m, mesh_ok m -> attributes_frame m m = Ok empty_frame.
Proof.
  intros m O. destruct (attributes_exact m m O O) as (f & E & L). rewrite E.
  unfold attributes_frame in E. destruct (by_geometry_ok m O) as [B _]. rewrite B in E. cbn [bind] in E.
  destruct (flat_map _ _) as [|r rows]; [symmetry; exact E|]. exfalso. injection E as <-.
  destruct (L (geometry_of r)) as [L1 _]. destruct L1 as (g & c1 & c2 & _ & A1 & A2 & N); [left; reflexivity|].
  rewrite (cell_unique m g c1 c2 O A1 A2) in N. tauto.
Qed.
Theorem self_graph : forall m, mesh_ok m -> graph_labels m m = Ok [].
Proof.
  intros m O. unfold graph_labels. rewrite (indexed_ok m O). cbn [bind].
  destruct O as (_ & _ & _ & _ & NG & ND).
  assert (forall nodes, (forall n d, In (n, d) nodes -> In (n, d) (f_graph m)) ->
    foldM (fun acc nv => match sget (f_graph m) (fst nv) with
      | None => Ok acc
      | Some n1 => if neighbours_same n1 (snd nv) then Ok acc
                   else if in_strs "id" (columns (f_cells m))
                        then Ok (acc ++ map fst (filter (fun r => py_eqb (value (snd r) "id") (JStr (fst nv))) (map (fun c => (geometry_of c, c)) (f_cells m))))%list
                        else Err KeyError end) [] nodes = Ok []) as X.
  { induction nodes as [|[n d] nodes IH]; intros H; [reflexivity|]. cbn [foldM fst snd].
    rewrite (sget_in_nodup _ n d NG (H n d (or_introl eq_refl))).
    assert (neighbours_same d d = true) as ->.
    { pose proof (ND n d (H n d (or_introl eq_refl))) as Nd. apply neighbours_same_spec; [exact Nd..|apply same_neighbours_refl]. }
    cbn [bind]. apply IH. intros n' d' I. apply H. right. exact I. }
  apply X. tauto.
Qed.
