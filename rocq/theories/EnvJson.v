(** Writing a mesh as JSON and loading it again. *)
From Verif Require Import Base Geo Graph Cell Builder Env Spec MeshSpec EnvSpec QLib CaseProofs SplitGeo Dict Rep SplitCore Stage BuilderSplit Invariant Consequences Reach Adaptive EnvSplit EnvInv EnvMerge.
Open Scope Z_scope.

(** ** Polygons *)
Lemma qmin_l a b : (a <= b)%Q -> qmin a b = a.
Proof. intros. unfold qmin. destruct (qltb_spec b a); auto. lra. Qed.
Lemma qmax_l a b : (b <= a)%Q -> qmax a b = a.
Proof. intros. unfold qmax. destruct (qltb_spec a b); auto. lra. Qed.
Lemma qmax_r a b : (a < b)%Q -> qmax a b = b.
Proof. intros. unfold qmax. destruct (qltb_spec a b); auto. contradiction. Qed.
Lemma min_rect a b : (a <= b)%Q -> min_list [a; a; b; b; a] = a.
Proof. intros H. cbn [min_list fold_left]. repeat ((rewrite (qmin_l a a) by lra) || (rewrite (qmin_l a b) by lra)). auto. Qed.
Lemma max_rect a b : (a < b)%Q -> max_list [a; a; b; b; a] = b.
Proof. intros H. cbn [max_list fold_left]. repeat ((rewrite (qmax_l a a) by lra) || (rewrite (qmax_r a b) by lra) || (rewrite (qmax_l b b) by lra) || (rewrite (qmax_l b a) by lra)). auto. Qed.
Lemma min_rect' a b : (a <= b)%Q -> min_list [a; b; b; a; a] = a.
Proof. intros H. cbn [min_list fold_left]. repeat ((rewrite (qmin_l a a) by lra) || (rewrite (qmin_l a b) by lra)). auto. Qed.
Lemma max_rect' a b : (a < b)%Q -> max_list [a; b; b; a; a] = b.
Proof. intros H. cbn [max_list fold_left]. repeat ((rewrite (qmax_r a b) by lra) || (rewrite (qmax_l b b) by lra) || (rewrite (qmax_l b a) by lra)). auto. Qed.

Lemma load_rect w s e n : (w < e)%Q -> (s < n)%Q ->
  min_list (ring_xs (rect_ring w s e n)) = w /\ max_list (ring_xs (rect_ring w s e n)) = e /\
  min_list (ring_ys (rect_ring w s e n)) = s /\ max_list (ring_ys (rect_ring w s e n)) = n.
Proof.
  intros H1 H2. unfold ring_xs, ring_ys, rect_ring. cbn [map fst snd].
  rewrite min_rect, max_rect, min_rect', max_rect' by lra. auto.
Qed.

Lemma load_bounds_ok b : drawable b -> load_bounds (to_polygon b) = Ok (without_times b).
Proof.
  intros (H1 & H2 & H3 & H4). unfold to_polygon.
  destruct (qltb_spec (long_min b) (long_max b)) as [L|L].
  - unfold load_bounds. destruct (load_rect (long_min b) (lat_min b) (long_max b) (lat_max b) L H1) as (-> & -> & -> & ->).
    apply Boundary_ok; auto; try lra. left; auto.
  - destruct H4 as [H4|(H4 & H5 & H6)]; [lra|].
    destruct (qeqb_spec (long_min b) 180); [lra|]. destruct (qeqb_spec (long_max b) (-180)); [lra|].
    unfold load_bounds.
    destruct (load_rect (long_min b) (lat_min b) 180 (lat_max b) H5 H1) as (-> & _ & -> & ->).
    destruct (load_rect (-180) (lat_min b) (long_max b) (lat_max b) H6 H1) as (_ & -> & _ & _).
    apply Boundary_ok; auto; try lra. left; auto.
Qed.

Lemma plane_drawable b : plane_bounds b -> drawable b.
Proof. intros ((H1 & H2 & H3 & H4) & _). unfold drawable. tauto. Qed.

(** ** Dictionaries with string keys *)
Lemma sset_new {V} (d : sdict V) k v : ~ In k (map fst d) -> sset d k v = d ++ [(k, v)].
Proof.
  induction d as [|(k0, v0) d IH]; cbn; auto. intros H.
  destruct (String.eqb_spec k k0); [subst; tauto|]. f_equal. apply IH. tauto.
Qed.
Lemma supdate_new {V} (e : sdict V) : forall d, NoDup (map fst e) -> (forall k, In k (map fst e) -> ~ In k (map fst d)) ->
  supdate d e = d ++ e.
Proof.
  unfold supdate. induction e as [|(k, v) e IH]; intros d N H; cbn [fold_left fst snd].
  - rewrite app_nil_r; auto.
  - cbn in N. inversion_clear N as [|? ? N1 N2]. rewrite sset_new by (apply H; left; auto).
    rewrite IH; auto.
    + rewrite <- app_assoc. auto.
    + intros k' H' X. rewrite map_app, in_app_iff in X. destruct X as [X|[<-|[]]]; [|tauto].
      apply (H k'); auto. right; auto.
Qed.
Lemma sget_app {V} (d e : sdict V) k :
  sget (d ++ e) k = match sget d k with Some v => Some v | None => sget e k end.
Proof. induction d as [|(k0, v) d IH]; cbn; auto. destruct (String.eqb k k0); auto. Qed.
Lemma sget_none {V} (d : sdict V) k : ~ In k (map fst d) -> sget d k = None.
Proof.
  induction d as [|(k0, v) d IH]; cbn; auto. intros H. destruct (String.eqb_spec k k0); [subst; tauto|]. apply IH. tauto.
Qed.

Lemma reserved_In n : reserved n = true <-> In n ["geometry"; "cx"; "cy"; "dcx"; "dcy"; "id"]%string.
Proof.
  unfold reserved. rewrite existsb_exists. split.
  - intros (x & H & E). apply String.eqb_eq in E. subst; auto.
  - intros H. exists n. split; auto. apply String.eqb_refl.
Qed.

Lemma cell_json_eq c : plain_data (e_data c) ->
  cell_to_json c = [ ("geometry"%string, JGeom (to_polygon (e_bounds c)));
                  ("cx"%string, JNum (Some (getcx (e_bounds c))));
                  ("cy"%string, JNum (Some (getcy (e_bounds c))));
                  ("dcx"%string, JNum (Some (getdcx (e_bounds c))));
                  ("dcy"%string, JNum (Some (getdcy (e_bounds c)))) ] ++ e_data c ++ [("id"%string, JId (e_id c))].
Proof.
  intros [N H]. unfold cell_to_json. cbv zeta. rewrite supdate_new; auto.
  - rewrite sset_new; [rewrite <- app_assoc; reflexivity|].
    rewrite map_app, in_app_iff. intros [X|X].
    + cbn in X. intuition discriminate.
    + apply H in X. apply X. cbn. tauto.
  - intros k Hk X. apply H in Hk. apply Hk. cbn in X |- *. tauto.
Qed.

Lemma filter_all {A} (p : A -> bool) l : (forall x, In x l -> p x = true) -> filter p l = l.
Proof. induction l as [|x l IH]; intros H; cbn; auto. rewrite H by (left; auto). f_equal. apply IH. intros; apply H; right; auto. Qed.

Lemma cell_round_trip c : drawable (e_bounds c) -> plain_data (e_data c) ->
  cell_from_json (cell_to_json c) = Ok (mkE (without_times (e_bounds c)) (e_data c) (e_id c)).
Proof.
  intros D P. rewrite cell_json_eq by auto. unfold cell_from_json.
  assert (Hid : ~ In "id"%string (map fst (e_data c))).
  { intros X. apply (proj2 P) in X. apply X. cbn. tauto. }
  rewrite sget_app, sget_app. replace (sget (e_data c) "id") with (@None jval) by (symmetry; apply sget_none; auto).
  cbn [sget]. cbn [String.eqb Ascii.eqb Bool.eqb].
  rewrite sget_app. cbn [sget]. cbn [String.eqb Ascii.eqb Bool.eqb].
  rewrite load_bounds_ok by auto. cbn [bind]. do 2 f_equal.
  rewrite !filter_app. cbn [filter]. cbn.
  rewrite app_nil_r. apply filter_all. intros kv H. apply negb_true_iff. apply not_true_is_false. intros R.
  apply reserved_In in R. apply (proj2 P) in R; auto. apply in_map; auto.
Qed.

(** ** Keys *)
Lemma string_keys_eq {V} (d : dict V) : distinct_as_strings d ->
  string_keys d = map (fun kv => (KS (key_int (fst kv)), snd kv)) d.
Proof.
  intros N. unfold string_keys.
  rewrite (fold_dset_fresh (fun kv => KS (key_int (fst kv))) (fun kv => snd kv)).
  - reflexivity.
  - unfold distinct_as_strings, dkeys in N. rewrite map_map in N.
    replace (map (fun kv : pykey * V => KS (key_int (fst kv))) d) with (map KS (map (fun kv : pykey * V => key_int (fst kv)) d))
      by (rewrite map_map; reflexivity).
    revert N. generalize (map (fun kv : pykey * V => key_int (fst kv)) d). induction l as [|x l IH]; cbn; [constructor|].
    intros H. inversion_clear H as [|? ? H1 H2]. constructor; auto. rewrite in_map_iff. intros (y & E & Hy).
    apply KS_inj in E. congruence.
  - intros kv _ [].
Qed.

Lemma dset_strings {V} (d : dict V) z v : (forall k, In k (dkeys d) -> exists i, k = KS i) ->
  forall k, In k (dkeys (dset d (KS z) v)) -> exists i, k = KS i.
Proof. intros H k Hk. apply dset_keys in Hk as [->|Hk]; eauto. Qed.
Lemma string_keys_strings {V} (d : dict V) :
  NoDup (dkeys (string_keys d)) /\ forall k, In k (dkeys (string_keys d)) -> exists i, k = KS i.
Proof.
  unfold string_keys.
  assert (X : forall l (acc : dict V), NoDup (dkeys acc) /\ (forall k, In k (dkeys acc) -> exists i, k = KS i) ->
    NoDup (dkeys (fold_left (fun acc kv => dset acc (KS (key_int (fst kv))) (snd kv)) l acc)) /\
    forall k, In k (dkeys (fold_left (fun acc kv => dset acc (KS (key_int (fst kv))) (snd kv)) l acc)) -> exists i, k = KS i).
  { induction l as [|kv l IH]; intros acc [N K]; cbn [fold_left]; auto. apply IH. split.
    - apply dset_nodup; auto.
    - apply dset_strings; auto. }
  apply X. split; [constructor|intros k []].
Qed.
Lemma string_keys_id {V} (d : dict V) : NoDup (dkeys d) -> (forall k, In k (dkeys d) -> exists i, k = KS i) ->
  string_keys d = d.
Proof.
  intros N K. rewrite string_keys_eq.
  - rewrite <- (map_id d) at 2. apply map_ext_in. intros (k, v) H. cbn.
    destruct (K k) as (i & ->); auto. apply (in_map fst) in H. exact H.
  - unfold distinct_as_strings. revert N K. generalize (dkeys d). induction l as [|k l IH]; cbn; [constructor|].
    intros N K. inversion_clear N as [|? ? N1 N2]. constructor; auto.
    rewrite in_map_iff. intros (k' & E & H'). apply N1.
    destruct (K k (or_introl eq_refl)) as (i & ->). destruct (K k' (or_intror H')) as (i' & ->). cbn in E. subst. auto.
Qed.

Lemma dset_values {V} (P : V -> Prop) (d : dict V) k v : (forall kv, In kv d -> P (snd kv)) -> P v ->
  forall kv, In kv (dset d k v) -> P (snd kv).
Proof.
  intros H Hv. induction d as [|(k0, v0) d IH]; cbn; [intros kv [<-|[]]; auto|].
  destruct (key_eqb k k0); intros kv [<-|H']; auto; cbn.
  - apply H; right; auto.
  - apply (H (k0, v0)); left; auto.
  - apply IH; auto. intros; apply H; right; auto.
Qed.
Lemma string_keys_values {V} (P : V -> Prop) (d : dict V) : (forall kv, In kv d -> P (snd kv)) ->
  forall kv, In kv (string_keys d) -> P (snd kv).
Proof.
  intros H. unfold string_keys.
  assert (X : forall l (acc : dict V), (forall kv, In kv l -> P (snd kv)) -> (forall kv, In kv acc -> P (snd kv)) ->
    forall kv, In kv (fold_left (fun acc kv => dset acc (KS (key_int (fst kv))) (snd kv)) l acc) -> P (snd kv)).
  { induction l as [|kv l IH]; intros acc Hl Ha; cbn [fold_left]; auto. apply IH.
    - intros; apply Hl; right; auto.
    - apply dset_values; auto. apply Hl; left; auto. }
  apply X; auto. intros kv [].
Qed.

Lemma graph_to_json_again g : graph_to_json (graph_to_json g) = graph_to_json g.
Proof.
  unfold graph_to_json at 1.
  assert (E : map (fun kv : pykey * nmap => (fst kv, string_keys (snd kv))) (graph_to_json g) = graph_to_json g).
  { rewrite <- (map_id (graph_to_json g)) at 2. apply map_ext_in. intros (k, v) H. cbn. f_equal.
    assert (X : string_keys v = v); auto.
    apply (string_keys_values (fun v => string_keys v = v) (map (fun kv => (fst kv, string_keys (snd kv))) g)) with (kv := (k, v)) in H; auto.
    intros kv Hkv. apply in_map_iff in Hkv as (kv' & <- & _). cbn. destruct (string_keys_strings (snd kv')).
    apply string_keys_id; auto. }
  transitivity (string_keys (graph_to_json g)); [f_equal; exact E|].
  destruct (string_keys_strings (map (fun kv : pykey * nmap => (fst kv, string_keys (snd kv))) g)).
  apply string_keys_id; auto.
Qed.

Lemma dget_string {V W} (val : V -> W) (d : dict V) k v : distinct_as_strings d -> dget_opt d k = Some v ->
  dget_opt (map (fun kv => (KS (key_int (fst kv)), val (snd kv))) d) (KS (key_int k)) = Some (val v).
Proof.
  intros N H. etransitivity; [apply (dget_map_keys (fun k => KS (key_int k)) val d k)|rewrite H; reflexivity].
  intros k' Hk' E. apply KS_inj in E.
  assert (Hk : In k (dkeys d)) by (apply dget_keys; eauto).
  unfold distinct_as_strings in N. revert N Hk Hk'. generalize (dkeys d). induction l as [|x l IH]; cbn; [intros _ []|].
  intros N [->|Hk] [->|Hk']; auto; inversion_clear N as [|? ? N1 N2].
  - exfalso. apply N1. rewrite <- E. apply in_map; auto.
  - exfalso. apply N1. rewrite E. apply in_map; auto.
  - auto.
Qed.

Theorem graph_json_lists g k mp d l : distinct_as_strings g -> (forall kv, In kv g -> distinct_as_strings (snd kv)) ->
  dget_opt g k = Some mp -> dget_opt mp d = Some l ->
  get_neighbours (graph_to_json g) (KS (key_int k)) (KS (key_int d)) = Ok l.
Proof.
  intros N M E1 E2. unfold graph_to_json. rewrite string_keys_eq.
  2:{ unfold distinct_as_strings, dkeys in *. rewrite !map_map in *. exact N. }
  rewrite map_map. cbn [fst snd]. unfold get_neighbours, dget.
  replace (dget_opt _ (KS (key_int k))) with (Some (string_keys mp)) by (symmetry; exact (dget_string string_keys g k mp N E1)).
  cbn [bind]. assert (Mm : distinct_as_strings mp) by (apply (M (k, mp)); apply dget_In; auto).
  rewrite string_keys_eq by exact Mm.
  replace (dget_opt _ (KS (key_int d))) with (Some l) by (symmetry; exact (dget_string (fun v => v) mp d l Mm E2)). reflexivity.
Qed.

(** Every graph represented with int keys becomes one with string keys. *)
Lemma rep_to_json g L f : rep KI g L f -> rep KS (graph_to_json g) L f.
Proof.
  intros (N & K & G).
  assert (Dz : forall (V : Type) (d : dict V) (P : Z -> Prop), NoDup (dkeys d) -> (forall k, In k (dkeys d) -> exists i, k = KI i) -> distinct_as_strings d).
  { intros V d _ Nd Kd. unfold distinct_as_strings. revert Nd Kd. generalize (dkeys d). induction l as [|k l IH]; cbn; [constructor|].
    intros Nd Kd. inversion_clear Nd as [|? ? N1 N2]. constructor; auto.
    rewrite in_map_iff. intros (k' & E & H'). apply N1.
    destruct (Kd k (or_introl eq_refl)) as (i & ->). destruct (Kd k' (or_intror H')) as (i' & ->). cbn in E. subst; auto. }
  assert (Dg : distinct_as_strings g).
  { apply (Dz _ g (fun _ => True)); auto. intros k Hk. apply K in Hk as (i & -> & _). eauto. }
  pose (g' := (map (fun kv => (KS (key_int (fst kv)), string_keys (snd kv))) g) : graph).
  assert (Eg : graph_to_json g = g').
  { unfold graph_to_json. rewrite string_keys_eq.
    - rewrite map_map. reflexivity.
    - unfold distinct_as_strings, dkeys in *. rewrite !map_map in *. exact Dg. }
  rewrite Eg.
  assert (Dk : dkeys g' = map (fun k => KS (key_int k)) (dkeys g)).
  { unfold g', dkeys. rewrite !map_map. auto. }
  split; [|split].
  - rewrite Dk. unfold distinct_as_strings in Dg. revert Dg. generalize (dkeys g). induction l as [|k l IH]; cbn; [constructor|].
    intros H. inversion_clear H as [|? ? H1 H2]. constructor; auto. rewrite in_map_iff. intros (k' & E & H').
    apply KS_inj in E. apply H1. rewrite <- E. apply in_map; auto.
  - intros k. rewrite Dk, in_map_iff. split.
    + intros (k' & <- & H). apply K in H as (i & -> & H). exists i. auto.
    + intros (i & -> & H). exists (KI i). split; auto. apply K. eauto.
  - intros i Hi. destruct (G i Hi) as (mp & Em & N' & K' & G'). exists (string_keys mp). split.
    + exact (dget_string string_keys g (KI i) mp Dg Em).
    + assert (Dm : distinct_as_strings mp).
      { apply (Dz _ mp (fun _ => True)); auto. intros k Hk. apply K' in Hk as (d & -> & _). eauto. }
      rewrite string_keys_eq by auto.
      pose (mp' := (map (fun kv => (KS (key_int (fst kv)), snd kv)) mp) : nmap). change (rep_map KS mp' (f i)).
      assert (Dk' : dkeys mp' = map (fun k => KS (key_int k)) (dkeys mp)).
      { unfold mp', dkeys. rewrite !map_map. auto. }
      split; [|split].
      * rewrite Dk'. unfold distinct_as_strings in Dm. revert Dm. generalize (dkeys mp). induction l as [|k l IH]; cbn; [constructor|].
        intros H. inversion_clear H as [|? ? H1 H2]. constructor; auto. rewrite in_map_iff. intros (k' & E & H').
        apply KS_inj in E. apply H1. rewrite <- E. apply in_map; auto.
      * intros k. rewrite Dk', in_map_iff. split.
        -- intros (k' & <- & H). apply K' in H as (d & -> & H). exists d. auto.
        -- intros (d & -> & H). exists (KI d). split; auto. apply K'. eauto.
      * intros d Hd. exact (dget_string (fun v => v) mp (KI d) (f i d) Dm (G' d Hd)).
Qed.

(** ** Whole meshes *)
Theorem round_trip m : (forall c, In c (em_cells m) -> drawable (e_bounds c) /\ plain_data (e_data c)) ->
  accepted (c_region (em_config m)) ->
  exists m', load_from_json (to_json m) = Ok m' /\
    em_config m' = em_config m /\ em_bounds m' = c_region (em_config m) /\
    map e_id (em_cells m') = map e_id (em_cells m) /\
    map e_data (em_cells m') = map e_data (em_cells m) /\
    map e_bounds (em_cells m') = map without_times (map e_bounds (em_cells m)) /\
    em_graph m' = graph_to_json (em_graph m) /\
    to_json m' = to_json m.
Proof.
  intros H ((A1 & A2 & A3) & A4).
  exists (mkEM (c_region (em_config m)) (map (fun c => mkE (without_times (e_bounds c)) (e_data c) (e_id c)) (em_cells m))
    (graph_to_json (em_graph m)) (em_config m)).
  split.
  - unfold load_from_json, to_json. cbn [j_config j_cells j_graph].
    rewrite Boundary_ok by auto. cbn [bind].
    assert (E : mapM cell_from_json (map cell_to_json (em_cells m)) =
      Ok (map (fun c => mkE (without_times (e_bounds c)) (e_data c) (e_id c)) (em_cells m))).
    { revert H. generalize (em_cells m). induction l as [|c l IH]; intros H; cbn [map mapM]; auto.
      destruct (H c (or_introl eq_refl)). rewrite cell_round_trip by auto. cbn [bind].
      rewrite IH by (intros; apply H; right; auto). reflexivity. }
    rewrite E. cbn [bind]. destruct (c_region (em_config m)) as [? ? ? ? ?]. reflexivity.
  - cbn [em_config em_bounds em_cells em_graph]. repeat split; auto; try (rewrite !map_map; reflexivity).
    unfold to_json. cbn [em_config em_bounds em_cells em_graph]. rewrite graph_to_json_again. f_equal.
    rewrite map_map. apply map_ext. intros c. reflexivity.
Qed.
