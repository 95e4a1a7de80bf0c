(** Proofs for the GeoJSON export. *)
From Coq Require Import String.
From Verif Require Import Base Geo Graph Cell Builder Env Export ExportSpec QLib Dict EnvInv EnvMerge EnvJson.
Open Scope Z_scope.

(** ** Rows and columns *)
Lemma row_eq c : plain c -> x_row c = ([ ("geometry"%string, XGeom (to_polygon (x_bounds c)));
    ("cx"%string, XNum (Fin (getcx (x_bounds c)))); ("cy"%string, XNum (Fin (getcy (x_bounds c))));
    ("dcx"%string, XNum (Fin (getdcx (x_bounds c)))); ("dcy"%string, XNum (Fin (getdcy (x_bounds c)))) ] ++
    x_data c ++ [("id"%string, XId (x_id c))])%list.
Proof.
  intros [N H]. unfold x_row. cbv zeta. rewrite supdate_new; auto.
  - rewrite sset_new; [rewrite <- app_assoc; reflexivity|].
    rewrite map_app, in_app_iff. intros [X|X].
    + cbn in X. intuition discriminate.
    + apply H in X. apply X. cbn. tauto.
  - intros k Hk X. apply H in Hk. apply Hk. cbn in X |- *. tauto.
Qed.
Lemma row_geom c : plain c -> sget (x_row c) "geometry" = Some (XGeom (to_polygon (x_bounds c))).
Proof. intros P. rewrite row_eq by auto. reflexivity. Qed.
Lemma row_id c : sget (x_row c) "id" = Some (XId (x_id c)).
Proof. unfold x_row. cbv zeta. rewrite EnvInv.sget_sset. reflexivity. Qed.
Lemma row_data c n : plain c -> ~ In n own_names -> sget (x_row c) n = sget (x_data c) n.
Proof.
  intros P Hn. rewrite row_eq by auto. rewrite sget_app.
  rewrite sget_none by (cbn; cbn in Hn; tauto). rewrite sget_app. destruct (sget (x_data c) n); auto.
  apply sget_none. cbn. cbn in Hn. tauto.
Qed.
Lemma row_names c n : plain c -> In n (map fst (x_row c)) <-> In n own_names \/ In n (map fst (x_data c)).
Proof. intros P. rewrite row_eq by auto. rewrite !map_app, !in_app_iff. cbn. tauto. Qed.

Lemma add_name_in acc n x : In x (add_name acc n) <-> In x acc \/ x = n.
Proof.
  unfold add_name. destruct (existsb (String.eqb n) acc) eqn:E.
  - apply existsb_exists in E as (y & Hy & Ey). apply String.eqb_eq in Ey. subst. split; auto. intros [H| ->]; auto.
  - rewrite in_app_iff. cbn. split; [intros [H|[H|[]]]; auto|intros [H|H]; auto].
Qed.
Lemma add_name_nodup acc n : NoDup acc -> NoDup (add_name acc n).
Proof.
  intros N. unfold add_name. destruct (existsb (String.eqb n) acc) eqn:E; auto.
  assert (Hn : ~ In n acc). { intros H. assert (existsb (String.eqb n) acc = true); [|congruence]. apply existsb_exists. exists n. split; auto. apply String.eqb_refl. }
  apply NoDup_app_intro; auto; [repeat constructor; intros []|]. intros x Hx [<-|[]]. auto.
Qed.
Lemma columns_gen rows : forall acc, NoDup acc ->
  NoDup (fold_left (fun acc r => fold_left add_name (map fst r) acc) rows acc) /\
  forall n, In n (fold_left (fun acc (r : sdict xval) => fold_left add_name (map fst r) acc) rows acc) <-> In n acc \/ exists r, In r rows /\ In n (map fst r).
Proof.
  assert (F : forall l acc, NoDup acc -> NoDup (fold_left add_name l acc) /\ forall n, In n (fold_left add_name l acc) <-> In n acc \/ In n l).
  { induction l as [|x l IH]; intros acc N; cbn [fold_left]; [split; auto; intros; cbn; tauto|].
    destruct (IH (add_name acc x) (add_name_nodup _ _ N)) as (N' & I'). split; auto.
    intros n. rewrite I', add_name_in. cbn. intuition congruence. }
  induction rows as [|r rows IH]; intros acc N; cbn [fold_left].
  - split; auto. intros n. split; auto. intros [H|(r & [] & _)]; auto.
  - destruct (F (map fst r) acc N) as (N1 & I1). destruct (IH _ N1) as (N2 & I2). split; auto.
    intros n. rewrite I2, I1. split.
    + intros [[H|H]|(q & Hq & H)]; eauto 6; right; [exists r; split; [left|]; auto|exists q; split; [right|]; auto].
    + intros [H|(q & [->|Hq] & H)]; auto. right; eauto.
Qed.
Lemma columns_nodup rows : NoDup (columns rows).
Proof. apply columns_gen. constructor. Qed.
Lemma columns_in rows n : In n (columns rows) <-> exists r, In r rows /\ In n (map fst r).
Proof. unfold columns. destruct (columns_gen rows [] (NoDup_nil _)) as (_ & I). rewrite I. cbn. tauto. Qed.
Lemma columns_cells cs n : (forall c, In c cs -> plain c) -> cs <> [] ->
  In n (columns (map x_row cs)) <-> In n own_names \/ exists c, In c cs /\ In n (map fst (x_data c)).
Proof.
  intros P Ne. rewrite columns_in. split.
  - intros (r & Hr & Hn). apply in_map_iff in Hr as (c & <- & Hc). apply row_names in Hn as [Hn|Hn]; eauto.
  - intros [Hn|(c & Hc & Hn)].
    + destruct cs as [|c cs]; [congruence|]. exists (x_row c). split; [left; auto|]. apply row_names; auto. apply P; left; auto.
    + exists (x_row c). split; [apply in_map; auto|]. apply row_names; auto.
Qed.

(** ** Means *)
Lemma fadd_fin l : forall a, fold_left fadd (map Fin l) (Fin a) = Fin (fold_left Qplus l a).
Proof. induction l as [|q l IH]; intros a; cbn [map fold_left]; auto. cbn [fadd]. apply IH. Qed.
Lemma fold_total l : forall a, (fold_left Qplus l a == a + total l)%Q.
Proof. induction l as [|q l IH]; intros a; cbn [fold_left total]; [lra|]. rewrite IH. lra. Qed.
Lemma fadd_bad l : forall a, (forall q, a <> Fin q) -> forall q, fold_left fadd l a <> Fin q.
Proof.
  induction l as [|x l IH]; intros a Ha; cbn [fold_left]; auto. apply IH. intros q.
  destruct a, x; cbn; try discriminate. exfalso. eapply Ha; eauto.
Qed.
Lemma fadd_has l : forall a, (exists x, In x l /\ forall q, x <> Fin q) -> forall q, fold_left fadd l a <> Fin q.
Proof.
  induction l as [|x l IH]; intros a (b & Hb & Nb); [destruct Hb|]. cbn [fold_left]. destruct Hb as [<-|Hb]; [|apply IH; eauto].
  apply fadd_bad. intros q. destruct a, x; cbn; try discriminate. exfalso. eapply Nb; eauto.
Qed.
Lemma all_fin l : (exists qs, l = map Fin qs) \/ (exists x, In x l /\ forall q, x <> Fin q).
Proof.
  induction l as [|x l [(qs & ->)|(b & Hb & Nb)]].
  - left. exists []. auto.
  - destruct x as [q| | |]; [left; exists (q :: qs); auto|right; eexists; split; [left; auto|discriminate]..].
  - right. exists b. split; auto. right; auto.
Qed.
Lemma mean_stands l : stands_for (Some (XList l)) (or_null (fmean l)).
Proof.
  destruct l as [|x l0] eqn:E; [constructor; auto|]. rewrite <- E. assert (Ne : l <> []) by congruence.
  unfold fmean. destruct l as [|y l1] eqn:El; [congruence|]. rewrite <- El in *. clear E x l0.
  destruct (all_fin l) as [(qs & Eq)|B].
  - rewrite Eq, fadd_fin, map_length. cbn [or_null]. constructor.
    + intros ->. cbn in Eq. congruence.
    + rewrite fold_total. assert (P : (0 < inject_Z (Z.of_nat (Datatypes.length qs)))%Q).
      { change 0%Q with (inject_Z 0). rewrite <- Zlt_Qlt. destruct qs; [cbn in Eq; congruence|]. cbn [Datatypes.length]. lia. }
      field. lra.
  - pose proof (fadd_has l (Fin 0) B) as H. destruct (fold_left fadd l (Fin 0)) as [q| | |]; [exfalso; eapply H; eauto|..];
    cbn [or_null]; constructor; auto.
Qed.

(** ** One column *)
Lemma mapM_nth {A B} (f : A -> res B) : forall l, (forall x, In x l -> exists y, f x = Ok y) ->
  exists l', mapM f l = Ok l' /\ List.length l' = List.length l /\ forall k x, nth_error l k = Some x -> exists y, f x = Ok y /\ nth_error l' k = Some y.
Proof.
  induction l as [|x l IH]; intros H; cbn [mapM].
  - exists []. split; auto. split; auto. intros [|k]; discriminate.
  - destruct (H x (or_introl eq_refl)) as (y & Ey). destruct IH as (l' & El & Ln & Nt); [intros; apply H; right; auto|].
    exists (y :: l'). rewrite Ey. cbn [bind]. rewrite El. cbn [bind]. split; auto. split; [cbn; congruence|].
    intros [|k] z; cbn [nth_error]; [intros E; injection E as <-; eauto|apply Nt].
Qed.
Definition pure (col : list (option xval)) : Prop := (~ In (Some (XBool false)) col) \/ (forall v, In v col -> exists b, v = Some (XBool b)).
Lemma export_column_ok col : (forall v, In v col -> numeric v) ->
  exists l, export_column col = Ok l /\ List.length l = List.length col /\
    forall k v, nth_error col k = Some v -> exists x, nth_error l k = Some x /\
      (pure col -> stands_for v (or_null x)) /\
      (v = Some (XBool false) -> (forall w, In w col -> exists b, w = Some (XBool b)) -> or_null x = None) /\
      (v = Some (XBool false) -> (exists w, In w col /\ forall b, w <> Some (XBool b)) -> or_null x = Some 0%Q).
Proof.
  intros Hn. unfold export_column, dtype_of. destruct (forallb is_bool col) eqn:Eb.
  - rewrite forallb_forall in Eb. eexists. split; [reflexivity|]. split; [apply map_length|].
    intros k v Hv. exists (match v with Some (XBool true) => Fin 1 | _ => NaN end). split; [rewrite nth_error_map, Hv; auto|].
    pose proof (Eb v (nth_error_In _ _ Hv)) as Bv. destruct v as [[| [|] | | | |]|]; try discriminate; cbn [or_null].
    + split; [constructor|]. split; discriminate.
    + split; [constructor|]. split; auto. intros _ (w & Hw & Nw). pose proof (Eb w Hw) as Bw.
      destruct w as [[| b | | | |]|]; try discriminate. exfalso. apply (Nw b); auto.
  - assert (Nb : exists w, In w col /\ forall b, w <> Some (XBool b)).
    { clear Hn. induction col as [|w col IH]; cbn [forallb] in Eb; [discriminate|]. apply andb_false_iff in Eb as [E|E].
      - exists w. split; [left; auto|]. intros b ->. discriminate.
      - destruct (IH E) as (z & Hz & Nz). exists z. split; auto. right; auto. }
    assert (All : (forall w, In w col -> exists b, w = Some (XBool b)) -> False).
    { intros A. destruct Nb as (w & Hw & N). destruct (A w Hw) as (b & ->). apply (N b); auto. }
    destruct (forallb is_num col) eqn:En.
    + rewrite forallb_forall in En. eexists. split; [reflexivity|]. split; [apply map_length|].
      intros k v Hv. exists (match v with Some (XNum x) => x | _ => NaN end). split; [rewrite nth_error_map, Hv; auto|].
      pose proof (En v (nth_error_In _ _ Hv)) as Bv. destruct v as [[x| | | | |]|]; try discriminate.
      * split; [|split; discriminate]. intros _. destruct x; cbn [or_null]; constructor; discriminate.
      * split; [|split; discriminate]. intros _. constructor.
    + destruct (mapM_nth mean_of col) as (l & El & Ln & Nt).
      { intros v Hv. pose proof (Hn v Hv) as N. destruct v as [[| | | | |]|]; cbn in *; try contradiction; eauto. }
      exists l. split; auto. split; auto. intros k v Hv. destruct (Nt k v Hv) as (x & Ex & Hx). exists x. split; auto.
      split; [|split].
      * intros Pu. destruct v as [[y| [|] | l1 | | |]|]; cbn in Ex; try discriminate; injection Ex as <-.
        -- destruct y; cbn [or_null]; constructor; discriminate.
        -- constructor.
        -- exfalso. destruct Pu as [Pu|Pu]; [|tauto]. apply Pu. eapply nth_error_In; eauto.
        -- apply mean_stands.
        -- constructor.
      * intros _ A. contradiction.
      * intros -> _. cbn in Ex. injection Ex as <-. reflexivity.
Qed.

(** ** All columns *)
Lemma somes_in {A B} (f : A -> res (option B)) : forall l l' b, mapM f l = Ok l' -> In b (somes l') <-> exists a, In a l /\ f a = Ok (Some b).
Proof.
  induction l as [|a l IH]; intros l' b; cbn [mapM].
  - intros E. injection E as <-. cbn. split; [intros []|intros (a & [] & _)].
  - destruct (f a) as [o|] eqn:Ea; [|discriminate]. cbn [bind]. destruct (mapM f l) as [l0|] eqn:El; [|discriminate]. cbn [bind].
    intros E. injection E as <-. specialize (IH l0 b eq_refl). destruct o as [b0|]; cbn [somes In].
    + rewrite IH. split.
      * intros [<-|(z & Hz & Ez)]; [exists a; auto|exists z; auto].
      * intros (z & [<-|Hz] & Ez); [left; congruence|right; eauto].
    + rewrite IH. split; intros (z & Hz & Ez); [exists z; auto|]. destruct Hz as [<-|Hz]; [congruence|eauto].
Qed.
Lemma somes_names (f : string -> res (option (string * list prop))) : (forall n m, f n = Ok (Some m) -> fst m = n) ->
  forall l l', NoDup l -> mapM f l = Ok l' -> NoDup (map fst (somes l')).
Proof.
  intros Hf. induction l as [|a l IH]; intros l' N; cbn [mapM].
  - intros E. injection E as <-. constructor.
  - inversion_clear N as [|? ? N1 N2]. destruct (f a) as [o|] eqn:Ea; [|discriminate]. cbn [bind].
    destruct (mapM f l) as [l0|] eqn:El; [|discriminate]. cbn [bind].
    intros E. injection E as <-. destruct o as [b|]; cbn [somes map]; auto. constructor; auto.
    intros X. apply in_map_iff in X as (m & Em & Hm). apply (somes_in f _ _ _ El) in Hm as (z & Hz & Ez).
    apply N1. rewrite (Hf _ _ Ea) in Em. rewrite (Hf _ _ Ez) in Em. subst. auto.
Qed.
Lemma export_one_name layer rows n m : export_one layer rows n = Ok (Some m) -> fst m = n.
Proof.
  unfold export_one. destruct (String.eqb n "geometry"); [discriminate|]. destruct (String.eqb n "id"); [intros E; injection E as <-; auto|].
  destruct (match layer with Some d => negb (String.eqb n d) | None => false end); [discriminate|].
  destruct (existsb _ _); [discriminate|]. destruct (export_column _); [|discriminate]. cbn [bind]. intros E; injection E as <-; auto.
Qed.
Lemma export_one_data layer rows n : ~ In n own_names ->
  export_one layer rows n = if match layer with Some d => negb (String.eqb n d) | None => false end then Ok None
    else l <- export_column (column rows n) ;; Ok (Some (n, map (fun x => PVal (or_null x)) l)).
Proof.
  intros Hn. unfold export_one. cbn in Hn. destruct (String.eqb_spec n "geometry"); [exfalso; subst; tauto|].
  destruct (String.eqb_spec n "id"); [exfalso; subst; tauto|].
  replace (existsb (String.eqb n) ["cx"; "cy"; "dcx"; "dcy"]%string) with false; [reflexivity|].
  symmetry. apply not_true_is_false. intros E. apply existsb_exists in E as (x & Hx & Ex). apply String.eqb_eq in Ex. subst x.
  cbn in Hx. tauto.
Qed.

Lemma layer_match (layer : option string) n :
  match layer with Some d => negb (String.eqb n d) | None => false end = false <-> match layer with Some d => n = d | None => True end.
Proof. destruct layer as [d|]; [|tauto]. destruct (String.eqb_spec n d); cbn; intuition congruence. Qed.

Lemma sget_pick (cols : list (string * list prop)) k n l : NoDup (map fst cols) -> In (n, l) cols ->
  sget (map (fun nc => (fst nc, nth k (snd nc) (PVal None))) cols) n = Some (nth k l (PVal None)).
Proof.
  induction cols as [|(a, b) cols IH]; cbn [map fst snd sget]; [intros _ []|]. intros N. inversion_clear N as [|? ? N1 N2].
  intros [E|H].
  - injection E as -> ->. rewrite String.eqb_refl. auto.
  - destruct (String.eqb_spec n a) as [->|]; [|auto]. exfalso. apply N1. change a with (fst (a, l)). apply in_map; auto.
Qed.

Section Whole.
Variables (layer : option string) (cs : list xcell).
Hypothesis Ne : cs <> [].
Hypothesis Pl : forall c, In c cs -> plain c.
Hypothesis Nu : forall n c, carried layer cs n -> In c cs -> numeric (sget (x_data c) n).

Lemma column_data n : ~ In n own_names -> column (map x_row cs) n = map (fun c => sget (x_data c) n) cs.
Proof. intros Hn. unfold column. rewrite map_map. apply map_ext_in. intros c Hc. apply row_data; auto. Qed.
Lemma data_names n : (exists c, In c cs /\ In n (map fst (x_data c))) -> ~ In n own_names.
Proof. intros (c & Hc & Hn). destruct (Pl c Hc) as (_ & H). auto. Qed.

Lemma export_all : exists cols, mapM (export_one layer (map x_row cs)) (columns (map x_row cs)) = Ok cols.
Proof.
  destruct (mapM_nth (export_one layer (map x_row cs)) (columns (map x_row cs))) as (cols & E & _); [|eauto].
  intros n Hn. apply columns_cells in Hn; auto. destruct (in_dec string_dec n own_names) as [O|O].
  - unfold export_one. cbn in O. destruct (String.eqb_spec n "geometry"); [eauto|]. destruct (String.eqb_spec n "id"); [eauto|].
    destruct (match layer with Some d => negb (String.eqb n d) | None => false end); [eauto|].
    replace (existsb (String.eqb n) ["cx"; "cy"; "dcx"; "dcy"]%string) with true; [eauto|].
    symmetry. apply existsb_exists. exists n. split; [cbn; intuition congruence|apply String.eqb_refl].
  - destruct Hn as [Hn|Hn]; [contradiction|]. rewrite export_one_data by auto.
    destruct (match layer with Some d => negb (String.eqb n d) | None => false end) eqn:El; [eauto|].
    apply layer_match in El. rewrite column_data by auto.
    destruct (export_column_ok (map (fun c => sget (x_data c) n) cs)) as (l & Ex & _).
    { intros v Hv. apply in_map_iff in Hv as (c & <- & Hc). apply Nu; auto. split; auto. }
    rewrite Ex. cbn [bind]. eauto.
Qed.

Theorem geojson_ok : exists fs, to_geojson layer cs = Ok fs /\ List.length fs = List.length cs /\
  forall k c, nth_error cs k = Some c -> exists f, nth_error fs k = Some f /\
    f_index f = k /\ f_geom f = to_polygon (x_bounds c) /\ sget (f_props f) "id" = Some (PId (x_id c)) /\
    NoDup (map fst (f_props f)) /\
    (forall n, In n (map fst (f_props f)) <-> n = "id"%string \/ carried layer cs n) /\
    (forall n, carried layer cs n -> exists v, sget (f_props f) n = Some (PVal v) /\
       (flags_agree cs n -> stands_for (sget (x_data c) n) v) /\
       (sget (x_data c) n = Some (XBool false) ->
          ((forall c', In c' cs -> exists b, sget (x_data c') n = Some (XBool b)) -> v = None) /\
          ((exists c', In c' cs /\ forall b, sget (x_data c') n <> Some (XBool b)) -> v = Some 0%Q))).
Proof.
  destruct export_all as (cols0 & Ec). set (cols := somes cols0).
  assert (Hcols : forall m, In m cols <-> exists n, In n (columns (map x_row cs)) /\ export_one layer (map x_row cs) n = Ok (Some m)).
  { intros m. apply (somes_in _ _ _ _ Ec). }
  assert (Ncols : NoDup (map fst cols)).
  { apply (somes_names (export_one layer (map x_row cs))) with (columns (map x_row cs)); auto.
    - intros n m. apply export_one_name.
    - apply columns_nodup. }
  assert (Eg : mapM (fun v => match v with Some (XGeom p) => Ok p | _ => Err TypeError end) (column (map x_row cs) "geometry") =
               Ok (map (fun c => to_polygon (x_bounds c)) cs)).
  { unfold column. rewrite map_map. clear - Pl. induction cs as [|c l IH]; cbn [map mapM]; auto.
    rewrite row_geom by (apply Pl; left; auto). cbn [bind]. rewrite IH by (intros; apply Pl; right; auto). reflexivity. }
  set (mk := fun kp : nat * polygon => mkF (fst kp) (map (fun nc => (fst nc, nth (fst kp) (snd nc) (PVal None))) cols) (snd kp)).
  exists (map mk (combine (seq 0 (List.length cs)) (map (fun c => to_polygon (x_bounds c)) cs))).
  split; [|split].
  - unfold to_geojson. cbv zeta. rewrite Ec. cbn [bind]. destruct cs as [|c0 l] eqn:E; [congruence|]. rewrite <- E in *. rewrite Eg. reflexivity.
  - rewrite map_length, combine_length, seq_length, map_length. lia.
  - intros k c Hk. assert (Lk : (k < List.length cs)%nat) by (apply nth_error_Some; congruence).
    exists (mk (k, to_polygon (x_bounds c))).
    assert (Hin : In c cs) by (eapply nth_error_In; eauto).
    assert (Own : In "id"%string own_names) by (cbn; tauto).
    split.
    { rewrite nth_error_map.
      replace (nth_error (combine (seq 0 (Datatypes.length cs)) (map (fun c0 => to_polygon (x_bounds c0)) cs)) k) with (Some (k, to_polygon (x_bounds c))); auto.
      symmetry. clear - Hk. change k with (0 + k)%nat at 2. revert Hk. generalize 0%nat. generalize k. induction cs as [|a l IH]; intros [|i] s H; try discriminate.
      - cbn in H. injection H as ->. cbn. rewrite Nat.add_0_r. auto.
      - cbn [nth_error] in H. cbn [Datatypes.length seq map combine nth_error]. rewrite (IH i (S s) H). do 2 f_equal. lia. }
    split; auto. split; auto. unfold mk. cbn [f_props fst snd].
    assert (Nm : map fst (map (fun nc : string * list prop => (fst nc, nth k (snd nc) (PVal None))) cols) = map fst cols) by (rewrite map_map; reflexivity).
    split; [|split; [|split]].
    + rewrite (sget_pick cols k "id" (map (fun v => match v with Some (XId z) => PId z | _ => PVal None end) (column (map x_row cs) "id"))); auto.
      * f_equal. apply nth_error_nth. unfold column. rewrite !map_map, nth_error_map, Hk. cbn [option_map]. rewrite row_id. reflexivity.
      * apply Hcols. exists "id"%string. split; [apply columns_cells; auto|reflexivity].
    + rewrite Nm. auto.
    + intros n. rewrite Nm. split.
      * intros H. apply in_map_iff in H as (m & <- & Hm). apply Hcols in Hm as (n & Hn & En). rewrite (export_one_name _ _ _ _ En).
        apply columns_cells in Hn; auto. destruct (in_dec string_dec n own_names) as [O|O].
        -- left. unfold export_one in En. destruct (String.eqb_spec n "geometry"); [discriminate|]. destruct (String.eqb_spec n "id"); auto.
           destruct (match layer with Some d => negb (String.eqb n d) | None => false end); [discriminate|].
           replace (existsb (String.eqb n) ["cx"; "cy"; "dcx"; "dcy"]%string) with true in En; [discriminate|].
           symmetry. apply existsb_exists. exists n. split; [cbn in *; intuition congruence|apply String.eqb_refl].
        -- right. destruct Hn as [Hn|Hn]; [contradiction|]. rewrite export_one_data in En by auto. split; auto.
           apply layer_match. destruct (match layer with Some d => negb (String.eqb n d) | None => false end); [discriminate|auto].
      * intros [->|(Hn & Hl)].
        -- apply in_map_iff. eexists. split; [|apply Hcols; exists "id"%string; split; [apply columns_cells; auto|reflexivity]]. auto.
        -- pose proof (data_names n Hn) as O. destruct (export_column_ok (map (fun c => sget (x_data c) n) cs)) as (l & Ex & _).
           { intros v Hv. apply in_map_iff in Hv as (c' & <- & Hc'). apply Nu; auto. split; auto. }
           apply in_map_iff. exists (n, map (fun x => PVal (or_null x)) l). split; auto. apply Hcols. exists n.
           split; [apply columns_cells; auto|]. rewrite export_one_data by auto.
           rewrite (proj2 (layer_match layer n) Hl). rewrite column_data, Ex by auto. reflexivity.
    + intros n Cn. pose proof Cn as (Hn & Hl). pose proof (data_names n Hn) as O.
      destruct (export_column_ok (map (fun c => sget (x_data c) n) cs)) as (l & Ex & Ln & Nt).
      { intros v Hv. apply in_map_iff in Hv as (c' & <- & Hc'). apply Nu; auto. }
      destruct (Nt k (sget (x_data c) n)) as (x & Hx & S1 & S2 & S3); [rewrite nth_error_map, Hk; auto|].
      exists (or_null x). split; [|split].
      * rewrite (sget_pick cols k n (map (fun x => PVal (or_null x)) l)); auto.
        -- f_equal. apply nth_error_nth. rewrite nth_error_map, Hx. auto.
        -- apply Hcols. exists n. split; [apply columns_cells; auto|]. rewrite export_one_data by auto.
           rewrite (proj2 (layer_match layer n) Hl). rewrite column_data, Ex by auto. reflexivity.
      * intros [Fa|Fa]; apply S1.
        -- left. intros X. apply in_map_iff in X as (c' & E' & Hc'). apply (Fa c'); auto.
        -- right. intros v Hv. apply in_map_iff in Hv as (c' & <- & Hc'). auto.
      * intros Ev. split.
        -- intros A. apply S2; auto. intros w Hw. apply in_map_iff in Hw as (c' & <- & Hc'). auto.
        -- intros (c' & Hc' & Nb). apply S3; auto. exists (sget (x_data c') n). split; auto. apply (in_map (fun c => sget (x_data c) n)); auto.
Qed.
End Whole.

(** A text among the exported values stops the export. *)
Lemma mapM_err {A B} (f : A -> res B) e : forall l, (exists x, In x l /\ f x = Err e) -> (forall x e', In x l -> f x = Err e' -> e' = e) ->
  mapM f l = Err e.
Proof.
  induction l as [|x l IH]; intros (z & Hz & Ez) H; [destruct Hz|]. cbn [mapM]. destruct (f x) as [y|e'] eqn:Ex.
  - destruct Hz as [->|Hz]; [congruence|]. cbn [bind]. rewrite IH; eauto. intros; eapply H; [right|]; eauto.
  - cbn [bind]. f_equal. eapply H; [left; auto|]. eauto.
Qed.
Lemma mean_err v e : mean_of v = Err e -> e = TypeError.
Proof. destruct v as [[| | | | |]|]; cbn; congruence. Qed.
Lemma export_one_err layer rows n e : export_one layer rows n = Err e -> e = TypeError.
Proof.
  unfold export_one. destruct (String.eqb n "geometry"); [discriminate|]. destruct (String.eqb n "id"); [discriminate|].
  destruct (match layer with Some d => negb (String.eqb n d) | None => false end); [discriminate|]. destruct (existsb _ _); [discriminate|].
  unfold export_column. destruct (dtype_of _); cbn [bind]; try discriminate.
  destruct (mapM mean_of (column rows n)) as [l|e'] eqn:E; cbn [bind]; [discriminate|]. intros X. injection X as <-.
  revert E. generalize (column rows n). induction l as [|v l IH]; cbn [mapM]; [discriminate|].
  destruct (mean_of v) as [y|e0] eqn:Ev; cbn [bind].
  - destruct (mapM mean_of l); cbn [bind]; [discriminate|]. auto.
  - intros X. injection X as <-. eapply mean_err; eauto.
Qed.
Theorem geojson_text layer cs n : (forall c, In c cs -> plain c) -> carried layer cs n ->
  (exists c s, In c cs /\ sget (x_data c) n = Some (XText s)) -> to_geojson layer cs = Err TypeError.
Proof.
  intros Pl Cn (c & s & Hc & Es). assert (Ne : cs <> []) by (intros ->; destruct Hc).
  pose proof Cn as (Hn & Hl). pose proof (data_names cs Pl n Hn) as O.
  unfold to_geojson. cbv zeta. rewrite (mapM_err (export_one layer (map x_row cs)) TypeError); [reflexivity| |].
  - exists n. split; [apply columns_cells; auto|]. rewrite export_one_data by auto.
    rewrite (proj2 (layer_match layer n) Hl). rewrite (column_data cs Pl) by auto.
    assert (Hv : In (Some (XText s)) (map (fun c => sget (x_data c) n) cs)) by (rewrite <- Es; apply (in_map (fun c => sget (x_data c) n)); auto).
    unfold export_column, dtype_of.
    destruct (forallb is_bool (map (fun c0 => sget (x_data c0) n) cs)) eqn:E1.
    { rewrite forallb_forall in E1. specialize (E1 _ Hv). discriminate. }
    destruct (forallb is_num (map (fun c0 => sget (x_data c0) n) cs)) eqn:E2.
    { rewrite forallb_forall in E2. specialize (E2 _ Hv). discriminate. }
    rewrite (mapM_err mean_of TypeError); [reflexivity| |].
    + eexists. split; [exact Hv|reflexivity].
    + intros x e' _. apply mean_err.
  - intros x e' _. apply export_one_err.
Qed.
