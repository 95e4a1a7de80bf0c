(** Proofs about look-up tables read from files. *)
From Verif Require Import Base QLib Geo Cell Loaders Spec Names Lut LutSpec LutProofs LutFiles LutFilesSpec.
Open Scope Q_scope.

Lemma mapM_map {A B} (f : A -> res B) (h : A -> B) : forall l, (forall a, In a l -> f a = Ok (h a)) -> mapM f l = Ok (map h l).
Proof.
  induction l as [|a l IH]; intros H; [reflexivity|]. cbn. rewrite (H a (or_introl eq_refl)), IH; [reflexivity|]. intros x I. apply H. right. exact I.
Qed.

Section P.
  Variable o : planar.
  Notation rows_t := (list (geom o * lval)).

  (** ** Labels *)
  Lemma combine_in {A B} : forall (l : list A) (m : list B) y, List.length l = List.length m -> In y m -> exists x, In (x, y) (combine l m).
  Proof.
    induction l as [|x l IH]; intros [|z m] y L I; try discriminate; [destruct I|]. injection L as L. destruct I as [->|I].
    - exists x. left. reflexivity.
    - destruct (IH m y L I) as (x' & J). exists x'. right. exact J.
  Qed.
  Lemma label_in : forall (rows : rows_t) g v, (exists r, In r (label_rows o rows) /\ lb_geom r = g /\ lb_val r = v) <-> In (g, v) rows.
  Proof.
    intros rows g v. unfold label_rows. split.
    - intros (r & I & <- & <-). apply in_map_iff in I as ([k [g' v']] & <- & I). cbn. exact (in_combine_r _ _ _ _ I).
    - intros I. destruct (combine_in (seq 0 (List.length rows)) rows (g, v) (seq_length _ _) I) as (k & J).
      exists (mkLab k g v). split; [apply in_map_iff; exists (k, (g, v)); split; [reflexivity|exact J]|split; reflexivity].
  Qed.
  Lemma label_map : forall (rows : rows_t) k, map lb_label (map (fun r => mkLab (fst r) (fst (snd r)) (snd (snd r)) : labelled o) (combine (seq k (List.length rows)) rows)) = seq k (List.length rows).
  Proof. induction rows as [|x rows IH]; intros k; [reflexivity|]. cbn. rewrite IH. reflexivity. Qed.
  Lemma label_nodup : forall rows : rows_t, NoDup (map lb_label (label_rows o rows)).
  Proof. intros rows. unfold label_rows. rewrite label_map. apply seq_NoDup. Qed.
  Lemma trim_nodup : forall b rows, NoDup (map lb_label rows) -> NoDup (map lb_label (lab_trim o b rows)).
  Proof.
    intros b rows. unfold lab_trim. induction rows as [|x rows IH]; intros N; [exact N|]. cbn in N. inversion N as [|? ? NI N']; subst. cbn.
    destruct (g_intersects o (lb_geom x) (g_shape o (Rect b))); [|exact (IH N')]. cbn. constructor; [|exact (IH N')].
    intros I. apply NI. apply in_map_iff in I as (y & E & J). apply filter_In in J as [J _]. rewrite <- E. apply in_map, J.
  Qed.

  (** ** verify_data *)
  Definition unpackv (rows : list (labelled o)) : rows_t := flat_map (fun r => map (fun g => (g, lb_val r)) (polygons o (lb_geom r))) rows.
  Lemma with_label_one : forall rows r, NoDup (map lb_label rows) -> In r rows -> with_label o rows (lb_label r) = [r].
  Proof.
    unfold with_label. induction rows as [|x rows IH]; intros r N I; [destruct I|]. cbn in N. inversion N as [|? ? NI N']; subst. cbn.
    destruct I as [->|I].
    - rewrite Nat.eqb_refl. f_equal. clear IH N N'. induction rows as [|y rows IH]; [reflexivity|]. cbn in NI |- *.
      destruct (Nat.eqb (lb_label y) (lb_label r)) eqn:E; [apply Nat.eqb_eq in E; exfalso; apply NI; left; exact E|]. apply IH. intros H. apply NI. right. exact H.
    - destruct (Nat.eqb (lb_label x) (lb_label r)) eqn:E; [|exact (IH r N' I)]. apply Nat.eqb_eq in E. exfalso. apply NI. rewrite E. apply in_map, I.
  Qed.
  Lemma verify_labelled_distinct : forall rows, rows <> [] -> NoDup (map lb_label rows) -> (forall r, In r rows -> g_kind o (lb_geom r) <> KOther) ->
    verify_labelled o rows = Ok (unpackv rows).
  Proof.
    intros rows N D K. unfold verify_labelled.
    rewrite (mapM_map _ (fun r => map (fun g => (g, lb_val r)) (polygons o (lb_geom r)))).
    - destruct rows; [contradiction|]. cbn [bind]. unfold unpackv. rewrite flat_map_concat_map. reflexivity.
    - intros r I. unfold verify_one, polygons. rewrite (with_label_one rows r D I). pose proof (K r I) as Kr.
      destruct (g_kind o (lb_geom r)); [reflexivity| |contradiction].
      rewrite length_const, Nat.eqb_refl, combine_const, map_map. reflexivity.
  Qed.

  (** ** Places *)
  Variable P : Type.
  Variable inside : geom o -> P -> Prop.
  Hypothesis law : lawful o P inside.

  Lemma polygons_in : forall g p, g_kind o g <> KOther -> (inside g p <-> exists q, In q (polygons o g) /\ inside q p).
  Proof.
    intros g p K. unfold polygons. destruct (g_kind o g) eqn:E; [|exact (law_parts _ _ _ law g p E)|contradiction].
    split; [intros I; exists g; split; [left; reflexivity|exact I]|]. intros (q & [<-|[]] & I). exact I.
  Qed.
  Lemma finish_places : forall b rows, NoDup (map lb_label rows) -> (forall r, In r rows -> g_kind o (lb_geom r) <> KOther) ->
    (exists p r, inside (g_shape o (Rect b)) p /\ In r rows /\ inside (lb_geom r) p) ->
    exists d, finish o b (lab_trim o b rows) = Ok d /\
      forall p v, inside (g_shape o (Rect b)) p -> (given_at inside d p v <-> exists r, In r rows /\ lb_val r = v /\ inside (lb_geom r) p).
  Proof.
    intros b rows N K (p0 & r0 & Ip & Ir & I0).
    assert (T : forall r p, inside (g_shape o (Rect b)) p -> In r rows -> inside (lb_geom r) p -> In r (lab_trim o b rows)).
    { intros r p Ib Jr Jp. apply filter_In. split; [exact Jr|]. exact (law_meet _ _ _ law _ _ p Jp Ib). }
    assert (U : forall r p, inside (g_shape o (Rect b)) p -> In r rows -> inside (lb_geom r) p -> exists q, In (q, lb_val r) (unpackv (lab_trim o b rows)) /\ inside q p).
    { intros r p Ib Jr Jp. destruct (proj1 (polygons_in (lb_geom r) p (K r Jr)) Jp) as (q & Jq & Jqp). exists q. split; [|exact Jqp].
      apply in_flat_map. exists r. split; [exact (T r p Ib Jr Jp)|]. apply in_map_iff. exists q. split; [reflexivity|exact Jq]. }
    exists (val_trim o b (unpackv (lab_trim o b rows))). split.
    - unfold finish. rewrite verify_labelled_distinct.
      + cbn [bind]. destruct (U r0 p0 Ip Ir I0) as (q & Jq & Jqp). unfold lut_coverage.
        assert (Iq : In q (map fst (unpackv (lab_trim o b rows)))) by (apply in_map_iff; exists (q, lb_val r0); split; [reflexivity|exact Jq]).
        pose proof (law_cover _ _ _ law _ _ b p0 Iq Jqp Ip) as C. destruct (map fst (unpackv (lab_trim o b rows))); [destruct Iq|].
        destruct (qeqb_spec (g_covered o (g :: l) (g_shape o (Rect b))) 0); [contradiction|reflexivity].
      + intros E. pose proof (T r0 p0 Ip Ir I0) as H. rewrite E in H. destruct H.
      + apply trim_nodup, N.
      + intros r I. apply filter_In in I as [I _]. exact (K r I).
    - intros p v Ib. split.
      + intros (g & I & J). apply filter_In in I as [I _]. apply in_flat_map in I as (r & Ir' & I). apply filter_In in Ir' as [Ir' _].
        apply in_map_iff in I as (g' & E & I). injection E as -> <-. exists r. split; [exact Ir'|]. split; [reflexivity|].
        apply (polygons_in _ p (K r Ir')). exists g. split; assumption.
      + intros (r & Jr & <- & Jp). destruct (U r p Ib Jr Jp) as (q & Jq & Jqp). exists q. split; [|exact Jqp]. apply filter_In. split; [exact Jq|].
        exact (law_meet _ _ _ law _ _ p Jqp Ib).
  Qed.
  Lemma with_rest : forall b (rows : rows_t) rest, in_world inside b -> (exists p, inside (g_shape o (Rect b)) p) ->
    (forall r, In r rows -> g_kind o (fst r) <> KOther) ->
    exists d, finish o b (lab_trim o b (label_rows o (rows ++ [(undefined o rows, rest)]))) = Ok d /\
      forall p v, inside (g_shape o (Rect b)) p -> (given_at inside d p v <-> value_at inside rows rest p v).
  Proof.
    intros b rows rest W (p0 & I0) K.
    assert (X : forall p, inside (g_shape o (Rect b)) p -> (inside (undefined o rows) p <-> forall w, ~ given_at inside rows p w)).
    { intros p Ib. unfold undefined. rewrite (law_minus _ _ _ law), (law_union _ _ _ law). split.
      - intros [_ N] w (g & I & J). apply N. exists g. split; [apply in_map_iff; exists (g, w); split; [reflexivity|exact I]|exact J].
      - intros N. split; [exact (W p Ib)|]. intros (g & I & J). apply in_map_iff in I as ([g' w] & <- & I). apply (N w). exists g'. split; assumption. }
    assert (Y : forall p v, inside (g_shape o (Rect b)) p ->
      ((exists r, In r (label_rows o (rows ++ [(undefined o rows, rest)])) /\ lb_val r = v /\ inside (lb_geom r) p) <-> value_at inside rows rest p v)).
    { intros p v Ib. split.
      - intros (r & I & <- & J). assert (L : In (lb_geom r, lb_val r) (rows ++ [(undefined o rows, rest)])).
        { apply label_in. exists r. repeat split. exact I. }
        apply in_app_iff in L as [L|[E|[]]]; [left; exists (lb_geom r); split; assumption|]. injection E as E1 E2. right. split; [symmetry; exact E2|].
        apply X; [exact Ib|]. rewrite E1. exact J.
      - intros [(g & I & J)|[-> N]].
        + assert (L : In (g, v) (rows ++ [(undefined o rows, rest)])) by (apply in_app_iff; left; exact I).
          apply label_in in L as (r & L & <- & <-). exists r. repeat split; assumption.
        + assert (L : In (undefined o rows, rest) (rows ++ [(undefined o rows, rest)])) by (apply in_app_iff; right; left; reflexivity).
          apply label_in in L as (r & L & E & <-). exists r. split; [exact L|]. split; [reflexivity|]. rewrite E. apply X; assumption. }
    destruct (finish_places b (label_rows o (rows ++ [(undefined o rows, rest)]))) as (d & E & H).
    - apply label_nodup.
    - intros r I. assert (L : In (lb_geom r, lb_val r) (rows ++ [(undefined o rows, rest)])) by (apply label_in; exists r; repeat split; exact I).
      apply in_app_iff in L as [L|[L|[]]]; [exact (K _ L)|]. injection L as <- _. apply (law_kind _ _ _ law).
    - exists p0. assert (Z : exists v, value_at inside rows rest p0 v).
      { assert (Dec : (exists w, given_at inside rows p0 w) \/ (forall w, ~ given_at inside rows p0 w)).
        { clear - law. induction rows as [|[g v] rows IH]; [right; intros w (g & [] & _)|].
          destruct (law_dec _ _ _ law g p0) as [I|NI]; [left; exists v, g; split; [left; reflexivity|exact I]|].
          destruct IH as [(w & g' & I & J)|N]; [left; exists w, g'; split; [right; exact I|exact J]|].
          right. intros w (g' & [E|I] & J); [injection E as -> ->; contradiction|]. apply (N w). exists g'. split; assumption. }
        destruct Dec as [(w & G)|N]; [exists w; left; exact G|exists rest; right; split; [reflexivity|exact N]]. }
      destruct Z as (v & Z). apply (Y p0 v I0) in Z as (r & I & _ & J). exists r. split; [exact I0|]. split; assumption.
    - exists d. split; [exact E|]. intros p v Ib. rewrite (H p v Ib). exact (Y p v Ib).
  Qed.

  (** ** Files *)
  Lemma concat_cols_same : forall files cols acc, (forall f, In f files -> c_cols f = cols) -> (forall c, In c cols -> In c acc) ->
    fold_left (fun cols (f : csv o) => cols ++ filter (fun c => negb (existsb (String.eqb c) cols)) (c_cols f))%list files acc = acc.
  Proof.
    induction files as [|f files IH]; intros cols acc H A; [reflexivity|]. cbn.
    replace (filter (fun c => negb (existsb (String.eqb c) acc)) (c_cols f)) with (@nil string).
    - rewrite app_nil_r. apply (IH cols); [intros g I; apply H; right; exact I|exact A].
    - rewrite (H f (or_introl eq_refl)). symmetry. clear - A. induction cols as [|c cols IH]; [reflexivity|]. cbn.
      replace (existsb (String.eqb c) acc) with true; [cbn; apply IH; intros x I; apply A; right; exact I|]. symmetry. apply existsb_exists. exists c.
      split; [apply A; left; reflexivity|apply String.eqb_refl].
  Qed.
  Lemma concat_cols_two : forall files a c, a <> c -> files <> [] -> (forall f, In f files -> c_cols f = [a; c]) -> concat_cols o files = [a; c].
  Proof.
    intros [|f files] a c Nac N H; [contradiction|]. unfold concat_cols. cbn [fold_left]. rewrite (H f (or_introl eq_refl)). cbn.
    apply (concat_cols_same files [a; c]); [intros g I; apply H; right; exact I|intros x I; exact I].
  Qed.
  Lemma polys_true : forall rows : rows_t, (forall r, In r rows -> g_kind o (fst r) <> KOther) ->
    forallb (fun r => match g_kind o (fst r) with KOther => false | _ => true end) rows = true.
  Proof. intros rows H. apply forallb_forall. intros r I. specialize (H r I). destruct (g_kind o (fst r)); [reflexivity|reflexivity|contradiction]. Qed.
  Lemma import_csv_ok : forall b files name, files <> [] -> name <> "geometry"%string -> (forall f, In f files -> c_cols f = ["geometry"%string; name]) ->
    (forall r, In r (flat_map c_rows files) -> g_kind o (fst r) <> KOther) ->
    import_lut_csv o b files = Ok (name, lab_trim o b (label_rows o (flat_map c_rows files ++ [(undefined o (flat_map c_rows files), LNan)]))).
  Proof.
    intros b files name N Nn H K. unfold import_lut_csv. rewrite (concat_cols_two files "geometry"%string name); [|intros E; apply Nn; symmetry; exact E|exact N|exact H].
    destruct files as [|f files]; [contradiction|]. rewrite (polys_true _ K). reflexivity.
  Qed.
End P.

(** ** Values *)
Lemma fold_pick : forall (better : Q -> Q -> bool) l a, let r := fold_left (fun a x => if better (lval_num x) (lval_num a) then x else a) l a in In r (a :: l).
Proof.
  induction l as [|x l IH]; intros a; cbn; [left; reflexivity|]. destruct (better (lval_num x) (lval_num a)).
  - destruct (IH x) as [E|I]; [right; left; exact E|right; right; exact I].
  - destruct (IH a) as [E|I]; [left; exact E|right; right; exact I].
Qed.
Lemma fold_max : forall l a, let r := fold_left (fun a x => if qltb (lval_num a) (lval_num x) then x else a) l a in
  forall x, In x (a :: l) -> lval_num x <= lval_num r.
Proof.
  induction l as [|x l IH]; intros a; cbn; [intros y [<-|[]]; lra|]. intros y I. destruct (qltb_spec (lval_num a) (lval_num x)) as [L|L].
  - pose proof (IH x x (or_introl eq_refl)) as H. destruct I as [<-|[<-|I]]; [lra|exact H|exact (IH x y (or_intror I))].
  - pose proof (IH a a (or_introl eq_refl)) as H. destruct I as [<-|[<-|I]]; [exact H|lra|exact (IH a y (or_intror I))].
Qed.
Lemma fold_min : forall l a, let r := fold_left (fun a x => if qltb (lval_num x) (lval_num a) then x else a) l a in
  forall x, In x (a :: l) -> lval_num r <= lval_num x.
Proof.
  induction l as [|x l IH]; intros a; cbn; [intros y [<-|[]]; lra|]. intros y I. destruct (qltb_spec (lval_num x) (lval_num a)) as [L|L].
  - pose proof (IH x x (or_introl eq_refl)) as H. destruct I as [<-|[<-|I]]; [lra|exact H|exact (IH x y (or_intror I))].
  - pose proof (IH a a (or_introl eq_refl)) as H. destruct I as [<-|[<-|I]]; [exact H|lra|exact (IH a y (or_intror I))].
Qed.
Lemma existsb_nan : forall l, existsb is_nan l = true <-> In LNan l.
Proof.
  intros l. rewrite existsb_exists. split; [intros (x & I & E); destruct x; try discriminate; exact I|intros I; exists LNan; split; [exact I|reflexivity]].
Qed.
Lemma extreme_spec : forall o max c d, (extreme_val o max c d = LNan <-> map snd (val_trim o c d) = [] \/ In LNan (map snd (val_trim o c d))) /\
  (extreme_val o max c d <> LNan -> In (extreme_val o max c d) (map snd (val_trim o c d)) /\
    forall v, In v (map snd (val_trim o c d)) -> if max then lval_num v <= lval_num (extreme_val o max c d) else lval_num (extreme_val o max c d) <= lval_num v).
Proof.
  intros o max c d. unfold extreme_val. set (l := map snd (val_trim o c d)). clearbody l. unfold pick_val. destruct l as [|v l].
  - split; [split; [intros _; left; reflexivity|reflexivity]|]. intros H. contradiction.
  - destruct (existsb is_nan (v :: l)) eqn:E.
    + apply existsb_nan in E. split; [split; [intros _; right; exact E|reflexivity]|]. intros H. contradiction.
    + assert (NN : ~ In LNan (v :: l)) by (intros I; apply existsb_nan in I; rewrite I in E; discriminate).
      destruct max.
      * pose proof (fold_pick (fun x a => qltb a x) l v) as F. cbv beta zeta in F. split.
        -- split; [intros X; rewrite X in F; contradiction|intros [X|X]; [discriminate|contradiction]].
        -- intros _. split; [exact F|]. intros w I. exact (fold_max l v w I).
      * pose proof (fold_pick qltb l v) as F. cbv beta zeta in F. split.
        -- split; [intros X; rewrite X in F; contradiction|intros [X|X]; [discriminate|contradiction]].
        -- intros _. split; [exact F|]. intros w I. exact (fold_min l v w I).
Qed.
