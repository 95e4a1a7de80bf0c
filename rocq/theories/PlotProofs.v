(** Lemmas about the plotter. *)
From Coq Require Import String.
From Verif Require Import Base Geo Cell Env QLib Export ExportSpec ExportProofs Plot PlotSpec.
Open Scope Z_scope.

Definition known (x : fnum) : Prop := x = NaN \/ exists q, x = Fin q.
Lemma fold_min : forall l a, known a -> (forall x, In x l -> known x) ->
  match fold_left fmin2 l a with
  | NaN => forall x, In x (a :: l) -> x = NaN
  | Fin m => In (Fin m) (a :: l) /\ forall q, In (Fin q) (a :: l) -> (m <= q)%Q
  | _ => False
  end.
Proof.
  induction l as [|x l IH]; intros a Ka Kl; cbn [fold_left].
  - destruct Ka as [-> | (q & ->)].
    + intros y [<-|[]]; reflexivity.
    + split; [left; reflexivity|]. intros p [[= <-]|[]]. lra.
  - assert (Kx : known x) by (apply Kl; left; reflexivity). assert (Kl' : forall y, In y l -> known y) by (intros y I; apply Kl; right; exact I).
    assert (Km : known (fmin2 a x)). { destruct Ka as [-> | (q & ->)]; [exact Kx|]. destruct Kx as [-> | (p & ->)]; [right; exists q; reflexivity|]. cbn. destruct (qltb p q); right; eauto. }
    specialize (IH _ Km Kl'). destruct (fold_left fmin2 l (fmin2 a x)) as [m| | |] eqn:E; try contradiction.
    + destruct IH as (I & L). destruct Ka as [-> | (q & ->)].
      * cbn [fmin2] in *. split; [right; exact I|]. intros p [[=]|J]. apply L, J.
      * destruct Kx as [-> | (p & ->)].
        -- cbn [fmin2] in *. split; [destruct I as [I|I]; [left; exact I|right; right; exact I]|]. intros r [J|[[=]|J]]; apply L; [left; exact J|right; exact J].
        -- cbn [fmin2 flt] in *. destruct (qltb_spec p q).
           ++ split; [right; exact I|]. intros r [[= <-]|J]; [|apply L, J]. specialize (L p (or_introl eq_refl)). lra.
           ++ split; [destruct I as [I|I]; [left; exact I|right; right; exact I]|].
              intros r [J|[[= <-]|J]]; [apply L; left; exact J| |apply L; right; exact J]. specialize (L q (or_introl eq_refl)). lra.
    + intros y [<-|[<-|I]]; [| |apply IH; right; exact I]; specialize (IH _ (or_introl eq_refl));
        destruct Ka as [-> | (q & ->)]; destruct Kx as [-> | (p & ->)]; try reflexivity; cbn in IH; try discriminate; destruct (qltb p q); discriminate.
Qed.
Lemma fold_max : forall l a, known a -> (forall x, In x l -> known x) ->
  match fold_left fmax2 l a with
  | NaN => forall x, In x (a :: l) -> x = NaN
  | Fin m => In (Fin m) (a :: l) /\ forall q, In (Fin q) (a :: l) -> (q <= m)%Q
  | _ => False
  end.
Proof.
  induction l as [|x l IH]; intros a Ka Kl; cbn [fold_left].
  - destruct Ka as [-> | (q & ->)].
    + intros y [<-|[]]; reflexivity.
    + split; [left; reflexivity|]. intros p [[= <-]|[]]. lra.
  - assert (Kx : known x) by (apply Kl; left; reflexivity). assert (Kl' : forall y, In y l -> known y) by (intros y I; apply Kl; right; exact I).
    assert (Km : known (fmax2 a x)). { destruct Ka as [-> | (q & ->)]; [exact Kx|]. destruct Kx as [-> | (p & ->)]; [right; exists q; reflexivity|]. cbn. destruct (qltb q p); right; eauto. }
    specialize (IH _ Km Kl'). destruct (fold_left fmax2 l (fmax2 a x)) as [m| | |] eqn:E; try contradiction.
    + destruct IH as (I & L). destruct Ka as [-> | (q & ->)].
      * cbn [fmax2] in *. split; [right; exact I|]. intros p [[=]|J]. apply L, J.
      * destruct Kx as [-> | (p & ->)].
        -- cbn [fmax2] in *. split; [destruct I as [I|I]; [left; exact I|right; right; exact I]|]. intros r [J|[[=]|J]]; apply L; [left; exact J|right; exact J].
        -- cbn [fmax2 flt] in *. destruct (qltb_spec q p).
           ++ split; [right; exact I|]. intros r [[= <-]|J]; [|apply L, J]. specialize (L p (or_introl eq_refl)). lra.
           ++ split; [destruct I as [I|I]; [left; exact I|right; right; exact I]|].
              intros r [J|[[= <-]|J]]; [apply L; left; exact J| |apply L; right; exact J]. specialize (L q (or_introl eq_refl)). lra.
    + intros y [<-|[<-|I]]; [| |apply IH; right; exact I]; specialize (IH _ (or_introl eq_refl));
        destruct Ka as [-> | (q & ->)]; destruct Kx as [-> | (p & ->)]; try reflexivity; cbn in IH; try discriminate; destruct (qltb q p); discriminate.
Qed.
Lemma min_is l lo : (forall x, In x l -> known x) -> In (Fin lo) l -> (forall q, In (Fin q) l -> lo <= q)%Q -> exists m, smin l = Fin m /\ (m == lo)%Q.
Proof.
  intros K I L. pose proof (fold_min l NaN (or_introl eq_refl) K) as H. unfold smin. destruct (fold_left fmin2 l NaN) as [m| | |]; try contradiction.
  - exists m. split; [reflexivity|]. destruct H as ([H|H] & M); [discriminate|]. specialize (L m H). specialize (M lo (or_intror I)). lra.
  - specialize (H _ (or_intror I)). discriminate.
Qed.
Lemma max_is l hi : (forall x, In x l -> known x) -> In (Fin hi) l -> (forall q, In (Fin q) l -> q <= hi)%Q -> exists m, smax l = Fin m /\ (m == hi)%Q.
Proof.
  intros K I L. pose proof (fold_max l NaN (or_introl eq_refl) K) as H. unfold smax. destruct (fold_left fmax2 l NaN) as [m| | |]; try contradiction.
  - exists m. split; [reflexivity|]. destruct H as ([H|H] & M); [discriminate|]. specialize (L m H). specialize (M hi (or_intror I)). lra.
  - specialize (H _ (or_intror I)). discriminate.
Qed.

Lemma part_of m lo hi v lo' hi' : (0 < m)%Z -> (lo < hi)%Q -> (lo <= v <= hi)%Q -> (lo' == lo)%Q -> (hi' == hi)%Q ->
  exists k, cmap_at m (fdiv (fsub (Fin v) (Fin lo')) (fsub (Fin hi') (Fin lo'))) = Entry k /\ in_part m lo hi v k.
Proof.
  intros M L V E1 E2. cbn [fsub fopp fadd fdiv]. destruct (qeqb_spec (hi' + - lo') 0); [exfalso; lra|].
  set (d := (hi' + - lo')%Q) in *. assert (D : (0 < d)%Q) by (unfold d; lra). set (x := ((v + - lo') / d)%Q).
  assert (X : (x * d == v - lo)%Q) by (unfold x; rewrite E1; field; lra).
  assert (Dl : (d == hi - lo)%Q) by (unfold d; lra). assert (X0 : (0 <= x <= 1)%Q) by (split; nra). cbn [cmap_at].
  destruct (qltb_spec x 0); [exfalso; lra|]. destruct (qltb_spec 1 x); [exfalso; lra|]. assert (Mq : (0 < inject_Z m)%Q) by (change 0%Q with (inject_Z 0); rewrite <- Zlt_Qlt; exact M).
  destruct (qeqb_spec x 1) as [X1|X1].
  - exists (m - 1). split; [reflexivity|]. unfold in_part. assert (Em : (inject_Z (m - 1) == inject_Z m - 1)%Q) by (unfold Z.sub; rewrite inject_Z_plus; reflexivity).
    split; [lia|]. rewrite Em. split; [nra|]. right. split; [nra|reflexivity].
  - exists (Qfloor (x * inject_Z m)). split; [reflexivity|]. set (y := (x * inject_Z m)%Q). assert (Y : (0 <= y < inject_Z m)%Q) by (unfold y; split; nra).
    pose proof (Qfloor_le y) as F1. pose proof (Qlt_floor y) as F2. rewrite inject_Z_plus in F2. change (inject_Z 1) with 1%Q in F2. unfold in_part. split.
    + assert ((-1 < Qfloor y)%Z) by (rewrite Zlt_Qlt; change (inject_Z (-1)) with (-1)%Q; lra). assert ((Qfloor y < m)%Z) by (rewrite Zlt_Qlt; lra). lia.
    + rewrite <- Dl, <- X. assert (Ey : (x * d * inject_Z m == y * d)%Q) by (unfold y; ring). rewrite Ey. split; [nra|]. left. nra.
Qed.

Lemma foldM_push {A B} (step : list B -> A -> res (list B)) (h : A -> list B -> Prop) : forall l,
  (forall a, In a l -> exists y, h a y /\ forall p, step p a = Ok (p ++ y)%list) ->
  exists ys, Forall2 h l ys /\ forall p, foldM step p l = Ok (p ++ List.concat ys)%list.
Proof.
  induction l as [|a l IH]; intros H.
  - exists []. split; [constructor|]. intros p. cbn. rewrite app_nil_r. reflexivity.
  - destruct (H a (or_introl eq_refl)) as (y & Hy & S). destruct IH as (ys & F & E); [intros b I; apply H; right; exact I|].
    exists (y :: ys). split; [constructor; assumption|]. intros p. cbn. rewrite S. cbn [bind]. rewrite E, app_assoc. reflexivity.
Qed.
Lemma foldM_map_ {A B C} (f : C -> B -> res C) (g : A -> B) l : forall s, foldM f s (map g l) = foldM (fun s a => f s (g a)) s l.
Proof. induction l as [|a l IH]; intros s; cbn; [reflexivity|]. destruct (f s (g a)); cbn; auto. Qed.
Lemma foldM_err {A S} (f : S -> A -> res S) e : forall l s, (exists a, In a l /\ forall s, f s a = Err e) -> (forall s a e', In a l -> f s a = Err e' -> e' = e) -> foldM f s l = Err e.
Proof.
  induction l as [|x l IH]; intros s (a & I & E) O; [destruct I|]. cbn. destruct (f s x) as [s'|e'] eqn:X; cbn.
  - apply IH; [|intros s0 b e' J; apply O; right; exact J]. destruct I as [<-|I]; [congruence|eauto].
  - f_equal. apply (O s x e' (or_introl eq_refl) X).
Qed.

Lemma all_some_ok {A} : forall (l : list (option A)) r, all_some l = Some r <-> l = map Some r.
Proof.
  induction l as [|[a|] l IH]; intros r; cbn.
  - split; [intros [= <-]; reflexivity|]. destruct r; [reflexivity|discriminate].
  - destruct (all_some l) as [s|] eqn:E.
    + split; [intros [= <-]; cbn; f_equal; apply IH; reflexivity|]. destruct r as [|b r]; [discriminate|]. intros [= <- H]. apply IH in H. congruence.
    + split; [discriminate|]. destruct r as [|b r]; [discriminate|]. intros [= <- H]. apply IH in H. discriminate.
  - split; [discriminate|]. destruct r; discriminate.
Qed.
Lemma all_some_none {A} : forall (l : list (option A)), In None l -> all_some l = None.
Proof. induction l as [|[a|] l IH]; intros I; [destruct I| |reflexivity]. cbn. destruct I as [[=]|I]. rewrite IH; auto. Qed.

Lemma sget_in_some {V} (d : sdict V) n : In n (map fst d) <-> sget d n <> None.
Proof.
  induction d as [|[k v] d IH]; cbn; [intuition congruence|]. destruct (String.eqb_spec n k) as [-> | N]; [intuition congruence|].
  rewrite <- IH. intuition congruence.
Qed.
Section Cells.
  Variables (colormaps : string -> option Z) (cs : list xcell) (n cmap : string) (m : Z).
  Hypothesis (Pl : forall c, In c cs -> plain c) (Nn : ~ In n own_names) (Ne : cs <> []).

  Lemma cell_column : column (map x_row cs) n = map (fun c => sget (x_data c) n) cs.
  Proof. apply (column_data cs Pl n Nn). Qed.
  Lemma known_name : existsb (String.eqb n) (columns (map x_row cs)) = true <-> exists c, In c cs /\ sget (x_data c) n <> None.
  Proof.
    rewrite existsb_exists. split.
    - intros (x & I & E). apply String.eqb_eq in E. subst x. apply columns_in in I. destruct I as (r & I & J). apply in_map_iff in I.
      destruct I as (c & <- & I). apply row_names in J; [|auto]. destruct J as [J|J]; [contradiction|]. exists c. split; [exact I|]. apply sget_in_some, J.
    - intros (c & I & J). exists n. split; [|apply String.eqb_refl]. apply columns_in. exists (x_row c). split; [apply in_map, I|].
      apply row_names; [auto|]. right. apply sget_in_some, J.
  Qed.
  (** The column as numbers, NaN where there is none. *)
  Definition nums : list fnum := map (fun c => match sget (x_data c) n with Some (XNum x) => x | _ => NaN end) cs.
  Lemma numbers_column : (forall c, In c cs -> sget (x_data c) n = None \/ exists x, sget (x_data c) n = Some (XNum x)) ->
    all_some (map as_number (column (map x_row cs) n)) = Some nums /\ (dtype_of (column (map x_row cs) n) = DNum).
  Proof.
    intros H. rewrite cell_column. split.
    - apply all_some_ok. unfold nums. rewrite !map_map. apply map_ext_in. intros c I. destruct (H c I) as [-> | (x & ->)]; reflexivity.
    - unfold dtype_of. assert (B : forallb is_bool (map (fun c => sget (x_data c) n) cs) = false).
      { destruct cs as [|c l]; [contradiction|]. cbn. destruct (H c (or_introl eq_refl)) as [-> | (x & ->)]; reflexivity. }
      rewrite B. assert (N : forallb is_num (map (fun c => sget (x_data c) n) cs) = true).
      { apply forallb_forall. intros v I. apply in_map_iff in I. destruct I as (c & <- & I). destruct (H c I) as [-> | (x & ->)]; reflexivity. }
      rewrite N. reflexivity.
  Qed.
  Lemma geometry_ok c : In c cs -> geometry (x_row c) = Ok (to_polygon (x_bounds c)).
  Proof. intros I. unfold geometry. rewrite (row_geom c (Pl c I)). reflexivity. Qed.
  Lemma entry_ok c : In c cs -> entry (x_row c) n = match sget (x_data c) n with Some v => Ok v | None => Err KeyError end.
  Proof. intros I. unfold entry. rewrite (row_data c n (Pl c I) Nn). reflexivity. Qed.

  (** A column of numbers: what the loop paints. *)
  Lemma map_loop : (forall c, In c cs -> exists x, sget (x_data c) n = Some (XNum x)) -> colormaps cmap = Some m ->
    exists ys, Forall2 (fun c y => exists x, sget (x_data c) n = Some (XNum x) /\
        y = [(to_polygon (x_bounds c), Mapped cmap (cmap_at m (fdiv (fsub x (smin nums)) (fsub (smax nums) (smin nums)))))]) cs ys /\
      forall p, plot_cmap colormaps (map x_row cs) n cmap p = Ok (p ++ List.concat ys)%list.
  Proof.
    intros H C. destruct numbers_column as (E & D); [intros c I; right; apply H, I|].
    assert (K : existsb (String.eqb n) (columns (map x_row cs)) = true).
    { apply known_name. destruct cs as [|c l]; [contradiction|]. exists c. split; [left; reflexivity|]. destruct (H c (or_introl eq_refl)) as (x & ->). discriminate. }
    unfold plot_cmap. rewrite K, E, D, C. cbn [negb].
    match goal with |- context [foldM ?f _ (map x_row cs)] => destruct (foldM_push (fun p c => f p (x_row c))
      (fun c y => exists x, sget (x_data c) n = Some (XNum x) /\
        y = [(to_polygon (x_bounds c), Mapped cmap (cmap_at m (fdiv (fsub x (smin nums)) (fsub (smax nums) (smin nums)))))]) cs) as (ys & F & L) end.
    - intros c I. destruct (H c I) as (x & Ex). eexists. split; [exists x; split; [exact Ex|reflexivity]|]. intros p.
      rewrite (entry_ok c I), Ex. cbn [bind as_number]. rewrite (geometry_ok c I). reflexivity.
    - exists ys. split; [exact F|]. intros p. rewrite foldM_map_. apply L.
  Qed.
  Lemma bool_loop colour : (forall c, In c cs -> sget (x_data c) n <> None) ->
    exists ys, Forall2 (fun c y => exists v, sget (x_data c) n = Some v /\ y = (if is_true v then [(to_polygon (x_bounds c), Plain colour)] else [])) cs ys /\
      forall p, plot_bool (map x_row cs) n colour p = Ok (p ++ List.concat ys)%list.
  Proof.
    intros H. unfold plot_bool.
    match goal with |- context [foldM ?f _ (map x_row cs)] => destruct (foldM_push (fun p c => f p (x_row c))
      (fun c y => exists v, sget (x_data c) n = Some v /\ y = (if is_true v then [(to_polygon (x_bounds c), Plain colour)] else [])) cs) as (ys & F & L) end.
    - intros c I. specialize (H c I). destruct (sget (x_data c) n) as [v|] eqn:Ev; [|contradiction]. eexists. split; [exists v; split; reflexivity|]. intros p.
      rewrite (entry_ok c I), (geometry_ok c I), Ev. cbn [bind]. destruct (is_true v); [reflexivity|rewrite app_nil_r; reflexivity].
    - exists ys. split; [exact F|]. intros p. rewrite foldM_map_. apply L.
  Qed.
End Cells.
