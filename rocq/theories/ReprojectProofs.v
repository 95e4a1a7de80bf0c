(** Proofs about reprojection. *)
From Verif Require FilesProofs.
From Verif Require Import Base QLib Geo Cell Loaders Builder Env Construct Names PyStr FilesSpec Spec MeshSpec DataSpec ConstructSpec TrimProofs ConstructProofs ParamProofs PipeProofs Reproject ReprojectSpec.
Open Scope Q_scope.

Lemma at_sget n t k c e : well_formed n t -> (entry_at t k c e <-> exists l, sget t c = Some l /\ nth_error l k = Some e).
Proof.
  intros (N & _). split; intros (l & A & B); exists l; split; auto.
  - apply sget_in_nodup; auto.
  - apply ParamProofs.sget_in; auto.
Qed.
Lemma sget_drop {V} (t : sdict V) c c' : sget (filter (fun x => negb (String.eqb (fst x) c)) t) c' = if String.eqb c' c then None else sget t c'.
Proof.
  induction t as [|(k, v) t IH]; [cbn; destruct (String.eqb c' c); reflexivity|].
  cbn [filter fst]. destruct (String.eqb_spec k c) as [->|K]; cbn [negb sget].
  - rewrite IH. destruct (String.eqb_spec c' c); reflexivity.
  - rewrite IH. destruct (String.eqb_spec c' k) as [->|]; [|reflexivity].
    rewrite (proj2 (String.eqb_neq _ _) K). reflexivity.
Qed.
Lemma drop_keys {V} (t : sdict V) c c' : In c' (map fst (filter (fun x => negb (String.eqb (fst x) c)) t)) <-> In c' (map fst t) /\ c' <> c.
Proof.
  rewrite !in_map_iff. split.
  - intros (x & <- & I). apply filter_In in I. destruct I as (I & N). split; [eauto|].
    intros H. rewrite H, String.eqb_refl in N. discriminate.
  - intros ((x & <- & I) & N). exists x. split; [reflexivity|]. apply filter_In. split; [exact I|].
    rewrite (proj2 (String.eqb_neq _ _) N). reflexivity.
Qed.
Lemma nodup_filter_fst {V} (t : sdict V) f : NoDup (map fst t) -> NoDup (map fst (filter f t)).
Proof.
  induction t as [|x t IH]; [auto|]. cbn [map filter]. intros N. inversion N as [|? ? I N']; subst.
  destruct (f x); [|auto]. cbn. constructor; [|auto]. intros H. apply I. apply in_map_iff in H. destruct H as (y & <- & J).
  apply filter_In in J. apply in_map. tauto.
Qed.
Lemma sset_in {V} (t : sdict V) c v c' l : In (c', l) (sset t c v) -> (c' = c /\ l = v) \/ In (c', l) t.
Proof.
  induction t as [|(k, w) t IH]; cbn [sset].
  - intros [E|[]]. inversion E; auto.
  - destruct (String.eqb_spec c k) as [->|].
    + intros [E|I]; [inversion E; auto|right; right; exact I].
    + intros [E|I]; [right; left; exact E|]. destruct (IH I); [auto|right; right; auto].
Qed.

Section P.
  Variable proj : Q -> Q -> Q * Q.
  (** What [reproject_df] computes, by columns. *)
  Lemma reproject_columns x_col y_col n t : well_formed n t -> In x_col (map fst t) -> In y_col (map fst t) -> x_col <> y_col ->
    exists t' xs ys, reproject_df proj x_col y_col t = Ok t' /\ sget t x_col = Some xs /\ sget t y_col = Some ys /\ well_formed n t' /\
      (forall c, sget t' c = if String.eqb c "long" then Some (map (fun p => fst (transform proj (fst p) (snd p))) (combine xs ys))
                             else if String.eqb c "lat" then Some (map (fun p => snd (transform proj (fst p) (snd p))) (combine xs ys))
                             else if String.eqb c x_col || String.eqb c y_col then None else sget t c) /\
      (forall c, In c (map fst t') <-> c = "lat"%string \/ c = "long"%string \/ (In c (map fst t) /\ c <> x_col /\ c <> y_col)) /\
      data_names t' = filter (fun c => negb (String.eqb c x_col || String.eqb c y_col)) (data_names t).
  Proof.
    intros (N & L) X Y XY.
    destruct (sget t x_col) as [xs|] eqn:EX; [|apply ParamProofs.sget_none in EX; contradiction].
    destruct (sget t y_col) as [ys|] eqn:EY; [|apply ParamProofs.sget_none in EY; contradiction].
    unfold reproject_df, column_of. rewrite EX, EY. cbn [bind].
    set (t1 := if String.eqb x_col "long" then t else filter (fun x => negb (String.eqb (fst x) x_col)) t).
    assert (E1 : (if String.eqb x_col "long" then Ok t else drop_column x_col t) = Ok t1).
    { unfold t1, drop_column. rewrite EX. destruct (String.eqb x_col "long"); reflexivity. }
    rewrite E1. cbn [bind].
    assert (G1 : sget t1 y_col = Some ys).
    { unfold t1. destruct (String.eqb_spec x_col "long"); [exact EY|]. rewrite sget_drop. rewrite (proj2 (String.eqb_neq y_col x_col)) by congruence. exact EY. }
    set (t2 := if String.eqb y_col "lat" then t1 else filter (fun x => negb (String.eqb (fst x) y_col)) t1).
    assert (E2 : (if String.eqb y_col "lat" then Ok t1 else drop_column y_col t1) = Ok t2).
    { unfold t2, drop_column. rewrite G1. destruct (String.eqb y_col "lat"); reflexivity. }
    rewrite E2. cbn [bind].
    set (xy := map (fun p => transform proj (fst p) (snd p)) (combine xs ys)).
    assert (Lx : List.length xs = n) by (apply (L x_col); apply ParamProofs.sget_in; exact EX).
    assert (Ly : List.length ys = n) by (apply (L y_col); apply ParamProofs.sget_in; exact EY).
    assert (LL : List.length xy = n) by (unfold xy; rewrite map_length, combine_length, Lx, Ly; apply Nat.min_id).
    assert (S1 : forall c l, In (c, l) t1 -> In (c, l) t).
    { intros c l. unfold t1. destruct (String.eqb x_col "long"); [auto|]. intros I. apply filter_In in I. tauto. }
    assert (S2 : forall c l, In (c, l) t2 -> In (c, l) t).
    { intros c l. unfold t2. destruct (String.eqb y_col "lat"); [auto|]. intros I. apply filter_In in I. apply S1. tauto. }
    assert (N2 : NoDup (map fst t2)).
    { unfold t2, t1. destruct (String.eqb y_col "lat"), (String.eqb x_col "long"); repeat apply nodup_filter_fst; exact N. }
    assert (MF : map (fun p => fst (transform proj (fst p) (snd p))) (combine xs ys) = map fst xy) by (unfold xy; rewrite map_map; reflexivity).
    assert (MS : map (fun p => snd (transform proj (fst p) (snd p))) (combine xs ys) = map snd xy) by (unfold xy; rewrite map_map; reflexivity).
    exists (sset (sset t2 "lat" (map snd xy)) "long" (map fst xy)), xs, ys.
    split; [reflexivity|]. split; [reflexivity|]. split; [reflexivity|]. split; [|split; [|split]].
    - split; [apply sset_nodup, sset_nodup, N2|]. intros c l I.
      apply sset_in in I. destruct I as [(_ & ->)|I]; [rewrite map_length; exact LL|].
      apply sset_in in I. destruct I as [(_ & ->)|I]; [rewrite map_length; exact LL|]. apply (L c), S2, I.
    - intros c. rewrite MF, MS, !ParamProofs.sget_sset.
      destruct (String.eqb_spec c "long") as [->|CL]; [reflexivity|]. destruct (String.eqb_spec c "lat") as [->|CA]; [reflexivity|].
      unfold t2, t1. destruct (String.eqb_spec y_col "lat") as [Ey|], (String.eqb_spec x_col "long") as [Ex|]; rewrite ?sget_drop;
        destruct (String.eqb_spec c x_col), (String.eqb_spec c y_col); cbn [orb]; solve [congruence|reflexivity].
    - intros c. rewrite !ParamProofs.sset_keys. unfold t2, t1.
      destruct (String.eqb_spec y_col "lat") as [Ey|], (String.eqb_spec x_col "long") as [Ex|]; rewrite ?drop_keys;
        destruct (String.eqb_spec c "long"), (String.eqb_spec c "lat"); intuition congruence.
    - assert (SS : forall (u : dframe) c v, standard c = true -> data_names (sset u c v) = data_names u).
      { intros u c v S. unfold data_names. induction u as [|(k, w) u IH]; cbn [sset map fst filter].
        - rewrite S. reflexivity.
        - destruct (String.eqb_spec c k) as [->|]; cbn [map fst filter]; [reflexivity|]. rewrite IH. reflexivity. }
      rewrite !SS by reflexivity.
      assert (DD : forall (u : dframe) c, data_names (filter (fun x => negb (String.eqb (fst x) c)) u) = filter (fun m => negb (String.eqb m c)) (data_names u)).
      { intros u c. unfold data_names. induction u as [|(k, w) u IH]; [reflexivity|]. cbn [filter map fst].
        destruct (String.eqb_spec k c) as [->|K]; cbn [negb map fst filter].
        - destruct (standard c); cbn [negb filter]; [exact IH|]. rewrite String.eqb_refl. exact IH.
        - destruct (standard k); cbn [negb filter]; [exact IH|]. rewrite (proj2 (String.eqb_neq k c) K). cbn [negb]. f_equal. exact IH. }
      assert (FF : forall c l, standard c = true -> (forall m : string, In m l -> standard m = false) -> filter (fun m => negb (String.eqb m c)) l = l).
      { intros c l S H. induction l as [|m l IH]; [reflexivity|]. cbn [filter]. destruct (String.eqb_spec m c) as [->|].
        - rewrite (H c) in S by (left; reflexivity). discriminate.
        - cbn [negb]. f_equal. apply IH. intros; apply H; right; auto. }
      assert (SN : forall (u : dframe) m, In m (data_names u) -> standard m = false).
      { intros u m I. apply filter_In in I. destruct I as (_ & I). apply negb_true_iff in I. exact I. }
      assert (F2 : forall (l : list string), filter (fun c => negb (String.eqb c x_col || String.eqb c y_col)) l =
                     filter (fun m => negb (String.eqb m y_col)) (filter (fun m => negb (String.eqb m x_col)) l)).
      { induction l as [|m l IH]; [reflexivity|]. cbn [filter]. destruct (String.eqb m x_col); cbn [orb negb filter]; [exact IH|].
        destruct (String.eqb m y_col); cbn [negb]; [exact IH|f_equal; exact IH]. }
      rewrite F2. unfold t2.
      assert (D1 : data_names t1 = filter (fun m => negb (String.eqb m x_col)) (data_names t)).
      { unfold t1. destruct (String.eqb_spec x_col "long") as [->|]; [|apply DD]. symmetry. apply FF; [reflexivity|apply SN]. }
      rewrite <- D1. destruct (String.eqb_spec y_col "lat") as [->|]; [|apply DD]. symmetry. apply FF; [reflexivity|apply SN].
  Qed.
  Lemma nth_error_combine {A B} (f : A * B -> entry) xs ys k x y : nth_error xs k = Some x -> nth_error ys k = Some y ->
    nth_error (map f (combine xs ys)) k = Some (f (x, y)).
  Proof.
    revert ys k. induction xs as [|a xs IH]; intros [|b ys] [|k]; cbn; try discriminate.
    - intros [= ->] [= ->]. reflexivity.
    - apply IH.
  Qed.
  Lemma reproject_df_ok x_col y_col n t : well_formed n t -> In x_col (map fst t) -> In y_col (map fst t) -> x_col <> y_col ->
    exists t', reproject_df proj x_col y_col t = Ok t' /\ reprojected proj x_col y_col n t t'.
  Proof.
    intros W X Y XY. destruct (reproject_columns x_col y_col n t W X Y XY) as (t' & xs & ys & E & EX & EY & W' & G & K & _).
    exists t'. split; [exact E|]. split; [exact W'|exact K| |].
    - intros k x y AX AY. apply (at_sget n) in AX; [|exact W]. apply (at_sget n) in AY; [|exact W].
      destruct AX as (l & A & A'). destruct AY as (m & B & B'). rewrite EX in A. rewrite EY in B. injection A as <-. injection B as <-.
      split; (apply (at_sget n); [exact W'|]); eexists; (split; [rewrite G; reflexivity|]);
        (erewrite nth_error_combine; [|exact A'|exact B']); reflexivity.
    - intros k c e NI. rewrite (at_sget n t), (at_sget n t') by auto. rewrite G. cbn [In] in NI.
      rewrite (proj2 (String.eqb_neq c "long")), (proj2 (String.eqb_neq c "lat")), (proj2 (String.eqb_neq c x_col)), (proj2 (String.eqb_neq c y_col)) by intuition congruence.
      reflexivity.
  Qed.

  (** Datasets. *)
  Definition move (p : point) : point := mkP (snd (proj (p_long p) (p_lat p))) (fst (proj (p_long p) (p_lat p))) (p_time p) (p_vals p).
  Lemma complete_known p : complete p = true <-> all_known p.
  Proof.
    unfold complete, all_known. rewrite negb_true_iff. unfold has_nan. split.
    - intros E I. assert (H : existsb (fun o => match o with None => true | Some _ => false end) (p_vals p) = true).
      { apply existsb_exists. exists None. auto. }
      congruence.
    - intros H. destruct (existsb _ (p_vals p)) eqn:E; [|reflexivity]. exfalso. apply existsb_exists in E. destruct E as ([q|] & I & J); [discriminate|auto].
  Qed.

  Lemma combine_snd {A B} (a : list A) (b : list B) : List.length a = List.length b -> map snd (combine a b) = b.
  Proof. revert b. induction a as [|x a IH]; intros [|y b]; cbn; try discriminate; [reflexivity|]. intros [= L]. f_equal. auto. Qed.
  Lemma sget_vars {V} (F : nat -> V) vars i s : NoDup vars -> (i < List.length vars)%nat ->
    sget (map (fun v => (snd v, F (fst v))) (combine (seq s (List.length vars)) vars)) (nth i vars ""%string) = Some (F (s + i)%nat).
  Proof.
    revert i s. induction vars as [|v vars IH]; intros i s N L; [cbn in L; lia|]. inversion N as [|? ? NI N']; subst.
    cbn [List.length seq combine map sget fst snd]. destruct i as [|i]; cbn [nth].
    - rewrite String.eqb_refl, Nat.add_0_r. reflexivity.
    - cbn [List.length] in L. rewrite (proj2 (String.eqb_neq _ _)).
      2:{ intros E. apply NI. rewrite <- E. apply nth_In. lia. }
      rewrite IH by (auto; lia). f_equal. f_equal. lia.
  Qed.
  Lemma combine_map {A B C} (f : A -> B) (g : A -> C) l : combine (map f l) (map g l) = map (fun x => (f x, g x)) l.
  Proof. induction l as [|x l IH]; [reflexivity|]. cbn. f_equal. exact IH. Qed.
  Lemma map_seq_nth {A B} (f : nat -> B) (g : A -> B) (d : list A) dflt : (forall k, (k < List.length d)%nat -> f k = g (nth k d dflt)) ->
    map f (seq 0 (List.length d)) = map g d.
  Proof.
    intros H. apply (nth_ext _ _ (f 0%nat) (g dflt)); [rewrite !map_length, seq_length; reflexivity|].
    rewrite map_length, seq_length. intros k L. rewrite !map_nth, seq_nth by exact L. cbn. apply H, L.
  Qed.
  Lemma nth_map_lt {A B} (f : A -> B) l k e dflt : (k < List.length l)%nat -> nth k (map f l) e = f (nth k l dflt).
  Proof. intros L. rewrite (nth_indep _ e (f dflt)) by (rewrite map_length; exact L). apply map_nth. Qed.

  Definition table_time (d : data) := map (fun p => match p_time p with Some t => EDay t | None => ENum None end) d.
  Lemma table_keys x y tm vars d : map fst (table_of x y tm vars d) = ((if tm then ["time"%string] else []) ++ [y; x] ++ vars)%list.
  Proof.
    unfold table_of. rewrite !map_app. cbn [map fst]. rewrite map_map. cbn [fst]. rewrite combine_snd by (apply seq_length).
    destruct tm; reflexivity.
  Qed.
  Lemma grid_table x y tm vars d : free_names x y vars -> (forall p, In p d -> List.length (p_vals p) = List.length vars) ->
    (forall p, In p d -> match p_time p with Some _ => tm = true | None => tm = false end) ->
    exists t', reproject_df proj x y (table_of x y tm vars d) = Ok t' /\ table_points t' = map move d /\ data_names t' = vars /\ well_formed (List.length d) t'.
  Proof.
    intros (XY & XT & YT & NV & FV) LV TM.
    set (T := table_of x y tm vars d).
    assert (W : well_formed (List.length d) T).
    { split.
      - unfold T. rewrite table_keys. assert (N1 : NoDup (y :: x :: vars)).
        { constructor; [intros [H|H]; [congruence|apply (FV y H); cbn; tauto]|]. constructor; [|exact NV]. intros H. apply (FV x H). cbn. tauto. }
        destruct tm; cbn [app]; [|exact N1]. constructor; [|exact N1]. intros [H|[H|H]]; [congruence|congruence|]. apply (FV _ H). cbn. tauto.
      - intros c l I. unfold T, table_of in I. rewrite !in_app_iff in I. destruct I as [I|[I|I]].
        + destruct tm; [|destruct I]. destruct I as [I|[]]. inversion I. apply map_length.
        + destruct I as [I|[I|[]]]; inversion I; apply map_length.
        + apply in_map_iff in I. destruct I as (v & E & _). inversion E. apply map_length. }
    destruct (reproject_columns x y _ T W) as (t' & xs & ys & E & EX & EY & W' & G & K & D); auto.
    1,2: unfold T; rewrite table_keys, in_app_iff; cbn; tauto.
    exists t'. split; [exact E|].
    assert (TK : forall c, c <> "time"%string -> sget T c = sget ([(y, map (fun p => ENum (Some (p_lat p))) d); (x, map (fun p => ENum (Some (p_long p))) d)] ++
       map (fun v => (snd v, map (fun p => ENum (nth (fst v) (p_vals p) None)) d)) (combine (seq 0 (List.length vars)) vars))%list c).
    { intros c C. unfold T, table_of. destruct tm; [|reflexivity]. cbn [app sget]. rewrite (proj2 (String.eqb_neq _ _) C). reflexivity. }
    assert (XS : xs = map (fun p => ENum (Some (p_long p))) d).
    { rewrite TK in EX by exact XT. cbn [app sget] in EX. rewrite (proj2 (String.eqb_neq x y) XY), String.eqb_refl in EX. congruence. }
    assert (YS : ys = map (fun p => ENum (Some (p_lat p))) d).
    { rewrite TK in EY by exact YT. cbn [app sget] in EY. rewrite String.eqb_refl in EY. congruence. }
    assert (DN : data_names t' = vars).
    { rewrite D. unfold data_names, T. rewrite table_keys.
      assert (F1 : filter (fun c => negb (String.eqb c x || String.eqb c y)) (filter (fun n => negb (standard n)) vars) = vars).
      { clear - FV. induction vars as [|v vars IH]; [reflexivity|]. cbn [filter].
        assert (H := FV v (or_introl eq_refl)). cbn [In] in H. unfold standard.
        rewrite (proj2 (String.eqb_neq v "lat")), (proj2 (String.eqb_neq v "long")), (proj2 (String.eqb_neq v "time")) by intuition congruence. cbn [orb negb filter].
        rewrite (proj2 (String.eqb_neq v x)), (proj2 (String.eqb_neq v y)) by intuition congruence. cbn [orb negb]. f_equal. apply IH. intros; apply FV; right; auto. }
      assert (F2 : filter (fun n => negb (standard n)) ((if tm then ["time"%string] else []) ++ [y; x] ++ vars)%list = filter (fun n => negb (standard n)) (y :: x :: vars)).
      { destruct tm; reflexivity. }
      rewrite F2. cbn [filter]. destruct (standard y), (standard x); cbn [negb filter]; rewrite ?String.eqb_refl; cbn [orb negb]; rewrite ?orb_true_r; cbn [negb]; exact F1. }
    split; [|split; [exact DN|exact W']].
    assert (NR : n_rows t' = List.length d).
    { destruct t' as [|(c, l) t']; [|apply (proj2 W' c l); left; reflexivity]. exfalso. apply (proj2 (K "lat"%string)). left; reflexivity. }
    unfold table_points. rewrite NR. apply (map_seq_nth _ _ _ (mkP 0 0 None [])). intros k L.
    set (p := nth k d (mkP 0 0 None [])). assert (I : In p d) by (apply nth_In, L).
    assert (GT : sget t' "time" = sget T "time").
    { rewrite G, (proj2 (String.eqb_neq "time" x)), (proj2 (String.eqb_neq "time" y)) by congruence. reflexivity. }
    assert (GO := G "long"%string). assert (GA := G "lat"%string). cbn [String.eqb Ascii.eqb Bool.eqb] in GO, GA.
    unfold row_point, move. rewrite DN, GT, GO, GA. clear GO GA.
    rewrite XS, YS, combine_map, !map_map. cbn [fst snd transform].
    rewrite !(nth_map_lt _ d k _ (mkP 0 0 None [])) by exact L. fold p. cbn [num]. f_equal.
    - assert (M := TM p I). unfold T, table_of. destruct tm.
      + cbn [app sget String.eqb Ascii.eqb Bool.eqb]. rewrite (nth_map_lt _ d k _ (mkP 0 0 None [])) by exact L. fold p. destruct (p_time p); [reflexivity|discriminate].
      + cbn [app sget]. rewrite (proj2 (String.eqb_neq "time" x)), (proj2 (String.eqb_neq "time" y)) by congruence.
        rewrite (proj2 (ParamProofs.sget_none _ _)). 2:{ rewrite map_map. cbn [fst]. rewrite combine_snd by apply seq_length. intros H. apply (FV _ H). cbn; tauto. }
        destruct (p_time p); [discriminate|reflexivity].
    - apply (nth_ext _ _ None None); [rewrite map_length; symmetry; apply LV, I|]. rewrite map_length. intros i Li.
      rewrite (nth_map_lt _ vars i _ ""%string) by exact Li. set (v := nth i vars ""%string). assert (Iv : In v vars) by (apply nth_In, Li).
      assert (H := FV v Iv). cbn [In] in H. rewrite G.
      rewrite (proj2 (String.eqb_neq v "long")), (proj2 (String.eqb_neq v "lat")), (proj2 (String.eqb_neq v x)), (proj2 (String.eqb_neq v y)) by intuition congruence. cbn [orb].
      rewrite TK by intuition congruence. cbn [app sget]. rewrite (proj2 (String.eqb_neq v x)), (proj2 (String.eqb_neq v y)) by intuition congruence.
      unfold v. rewrite (sget_vars (fun i => map (fun p => ENum (nth i (p_vals p) None)) d)) by assumption. cbn [plus].
      rewrite (nth_map_lt _ d k _ (mkP 0 0 None [])) by exact L. reflexivity.
  Qed.
End P.

Lemma points_timed ds p : In p (xr_points ds) -> match p_time p with Some _ => timed ds = true | None => timed ds = false end.
Proof.
  intros I. unfold xr_points in I. apply in_flat_map in I. destruct I as (la & _ & I). apply in_flat_map in I. destruct I as (lo & _ & I).
  unfold timed. destruct (x_time ds) as [ts|].
  - apply in_map_iff in I. destruct I as (t & <- & _). reflexivity.
  - destruct I as [<-|[]]. reflexivity.
Qed.
Lemma sel_filter_complete d : selected all_known d (filter complete d).
Proof.
  induction d as [|p d IH]; [constructor|]. cbn [filter]. destruct (complete p) eqn:E.
  - constructor; [apply complete_known, E|exact IH].
  - constructor; [|exact IH]. intros K. apply complete_known in K. congruence.
Qed.

(** Renaming the data column does not change the points. *)
Lemma rename_cons o n k (v : list entry) t : rename [(o, n)] ((k, v) :: t) = (if String.eqb k o then n else k, v) :: rename [(o, n)] t.
Proof. unfold rename at 1. cbn [map fst snd sget]. fold (rename [(o, n)] t). destruct (String.eqb k o); reflexivity. Qed.
Lemma sget_rename o n (t : dframe) c : c <> o -> c <> n -> sget (rename [(o, n)] t) c = sget t c.
Proof.
  intros O N. induction t as [|(k, v) t IH]; [reflexivity|]. rewrite rename_cons. cbn [sget]. destruct (String.eqb_spec k o) as [->|].
  - rewrite (proj2 (String.eqb_neq _ _) N), (proj2 (String.eqb_neq _ _) O). exact IH.
  - rewrite IH. reflexivity.
Qed.
Lemma sget_rename_new o n (t : dframe) : (n = o \/ ~ In n (map fst t)) -> sget (rename [(o, n)] t) n = sget t o.
Proof.
  intros H. induction t as [|(k, v) t IH]; [reflexivity|]. rewrite rename_cons. cbn [sget].
  assert (H' : n = o \/ ~ In n (map fst t)) by (destruct H; [auto|right; cbn in *; tauto]).
  rewrite IH by exact H'.
  destruct (String.eqb_spec k o) as [->|K].
  - rewrite !String.eqb_refl. reflexivity.
  - rewrite (proj2 (String.eqb_neq o k)) by congruence. destruct (String.eqb_spec n k) as [->|]; [|reflexivity].
    destruct H as [->|H]; [congruence|]. exfalso. apply H. left. reflexivity.
Qed.
Lemma standard_iff c : standard c = true <-> c = "lat"%string \/ c = "long"%string \/ c = "time"%string.
Proof. unfold standard. rewrite !orb_true_iff, !String.eqb_eq. tauto. Qed.
Lemma rename_points o n (t : dframe) : data_names t = [o] -> standard n = false -> data_names (rename [(o, n)] t) = [n] /\ table_points (rename [(o, n)] t) = table_points t.
Proof.
  intros D S.
  assert (SO : standard o = false).
  { assert (I : In o (data_names t)) by (rewrite D; left; reflexivity). apply filter_In in I. destruct I as (_ & I). apply negb_true_iff in I. exact I. }
  assert (DN : data_names (rename [(o, n)] t) = [n]).
  { assert (G : forall l, data_names t = l -> data_names (rename [(o, n)] t) = map (fun k => if String.eqb k o then n else k) l).
    { clear - S SO. unfold data_names. induction t as [|(k, v) t IH]; intros l E; [rewrite <- E; reflexivity|]. rewrite rename_cons. cbn [map fst filter] in *.
      destruct (String.eqb_spec k o) as [->|K].
      - rewrite S. rewrite SO in E. cbn [negb] in *. rewrite <- E. cbn [map]. rewrite String.eqb_refl. f_equal. apply IH. reflexivity.
      - destruct (standard k); cbn [negb] in *; [apply IH, E|]. rewrite <- E. cbn [map]. rewrite (proj2 (String.eqb_neq _ _) K). f_equal. apply IH. reflexivity. }
    rewrite (G _ D). cbn [map]. rewrite String.eqb_refl. reflexivity. }
  split; [exact DN|]. unfold table_points.
  assert (NR : n_rows (rename [(o, n)] t) = n_rows t) by (destruct t; reflexivity). rewrite NR.
  apply map_ext. intros k. unfold row_point. rewrite DN, D.
  assert (X : forall c, standard c = true -> sget (rename [(o, n)] t) c = sget t c).
  { intros c C. apply sget_rename; intros ->; congruence. }
  rewrite !X by reflexivity.
  cbn [map]. rewrite sget_rename_new; [reflexivity|].
  destruct (string_dec n o); [auto|right]. intros I.
  assert (J : In n (data_names t)) by (apply filter_In; rewrite S; auto).
  rewrite D in J. destruct J as [J|[]]; congruence.
Qed.
Lemma name_points data_name (t : dframe) o : data_names t = [o] -> (forall n, data_name = Some n -> ~ In n ["lat"; "long"; "time"]%string) ->
  exists nt, name_source_df data_name t = Ok nt /\ table_points (snd nt) = table_points t.
Proof.
  intros D H. unfold name_source_df, set_name_df, get_name_df. rewrite D. cbn [only_name bind]. destruct data_name as [n|].
  - eexists. split; [reflexivity|]. cbn [snd]. apply rename_points; [exact D|]. destruct (standard n) eqn:S; [|reflexivity].
    exfalso. apply (H n eq_refl). apply standard_iff in S. cbn. intuition.
  - eexists. split; reflexivity.
Qed.

Lemma in_move proj d p : In p (map (move proj) d) <-> exists q, In q d /\ moved proj q p.
Proof.
  rewrite in_map_iff. split.
  - intros (q & <- & I). exists q. split; [exact I|]. repeat split.
  - intros (q & I & A & B & C & D). exists q. split; [|exact I]. unfold move. destruct p. cbn in *. subst. reflexivity.
Qed.
Lemma grid_rows x y proj ds : free_names x y (n_vars ds) -> n_x ds = x -> n_y ds = y ->
  (forall p, In p (xr_points (n_ds ds)) -> List.length (p_vals p) = List.length (n_vars ds)) ->
  exists t', reproject_xr proj x y ds = Ok t' /\ table_points t' = map (move proj) (filter complete (xr_points (n_ds ds))) /\ data_names t' = n_vars ds.
Proof.
  intros F <- <- L. unfold reproject_xr.
  destruct (grid_table proj _ _ (timed (n_ds ds)) (n_vars ds) (filter complete (xr_points (n_ds ds))) F) as (t' & E & P & D & _).
  - intros p I. apply filter_In in I. apply L. tauto.
  - intros p I. apply filter_In in I. apply points_timed. tauto.
  - eauto.
Qed.

Lemma nth_filter_in {A} f (l : list A) k d : (k < List.length (filter f l))%nat -> In (nth k (filter f l) d) l /\ f (nth k (filter f l) d) = true.
Proof. intros L. apply filter_In, nth_In, L. Qed.
Lemma in_combine_seq {A} (l : list A) a k : In (a, k) (combine l (seq 0 (List.length l))) <-> nth_error l k = Some a.
Proof.
  assert (G : forall s, In (a, k) (combine l (seq s (List.length l))) <-> (s <= k)%nat /\ nth_error l (k - s) = Some a).
  { induction l as [|x l IH]; intros s; cbn [List.length seq combine In].
    - split; [tauto|]. intros (_ & H). destruct (k - s)%nat; discriminate.
    - rewrite IH. split.
      + intros [E|(A1 & B1)]; [inversion E; subst; rewrite Nat.sub_diag; cbn; auto|]. split; [lia|]. replace (k - s)%nat with (S (k - S s)) by lia. exact B1.
      + intros (A1 & B1). destruct (Nat.eq_dec k s) as [->|]; [left; rewrite Nat.sub_diag in B1; cbn in B1; congruence|].
        right. split; [lia|]. replace (k - s)%nat with (S (k - S s)) in B1 by lia. exact B1. }
  rewrite G, Nat.sub_0_r. split; [tauto|]. intros; split; [lia|auto].
Qed.
Lemma nth_error_map_inv {A B} (f : A -> B) l k b : nth_error (map f l) k = Some b -> exists a, nth_error l k = Some a /\ f a = b.
Proof. rewrite nth_error_map. destruct (nth_error l k); [|discriminate]. cbn. intros [= <-]. eauto. Qed.

Lemma in_combine_fst {A B} (f : A -> B) l b k : In (b, k) (combine (map f l) (seq 0 (List.length l))) <-> nth_error (map f l) k = Some b.
Proof. rewrite <- in_combine_seq, map_length. reflexivity. Qed.
Definition amsr_grid (fs : list amsr_file) ys xs : xrds :=
  mkXr ys xs (Some (combine (map fst fs) (seq 0 (List.length fs)))) (fun i j k => [snd (nth k fs (0%Z, fun _ _ => None)) i j]).
Lemma amsr_points proj t0 t1 ys xs files p :
  In p (map (move proj) (filter complete (xr_points (amsr_grid (filter (fun f => ((t0 <=? fst f) && (fst f <=? t1))%Z) files) ys xs)))) <-> amsr_point proj t0 t1 ys xs files p.
Proof.
  set (fs := filter _ files). rewrite in_move. unfold amsr_point. split.
  - intros (q & I & M). apply filter_In in I. destruct I as (I & C). apply complete_known in C.
    unfold xr_points, amsr_grid in I. cbn [x_lat x_long x_time x_val] in I. apply in_flat_map in I. destruct I as ((y, i) & Iy & I).
    apply in_flat_map in I. destruct I as ((x, j) & Ix & I). apply in_map_iff in I. destruct I as ((day, k) & <- & I). cbn [fst snd] in *.
    apply in_combine_fst in I.
    apply nth_error_map_inv in I. destruct I as ((day', values) & I & E). cbn in E. subst day'.
    pose proof (nth_error_nth _ _ (0%Z, fun _ _ : nat => @None Q) I) as NN. rewrite NN in C, M. clear NN. cbn [snd] in *.
    apply nth_error_In in I. apply filter_In in I. destruct I as (I & R). apply andb_true_iff in R. destruct R as (R1 & R2). cbn [fst] in *.
    destruct (values i j) as [v|] eqn:V; [|exfalso; apply C; left; reflexivity].
    exists day, values, y, i, x, j, v. split; [exact I|]. split; [lia|]. split; [exact Iy|]. split; [exact Ix|]. split; [exact V|].
    destruct M as (A & B & T & W). cbn in *. destruct p. cbn in *. subst. reflexivity.
  - intros (day & values & y & i & x & j & v & I & R & Iy & Ix & V & ->).
    exists (mkP y x (Some day) [Some v]). split; [|repeat split].
    apply filter_In. split.
    2:{ apply complete_known. intros [H|[]]; discriminate. }
    assert (J : In (day, values) fs) by (apply filter_In; split; [exact I|]; apply andb_true_iff; cbn [fst]; lia).
    apply In_nth_error in J. destruct J as (k & J).
    unfold xr_points, amsr_grid. cbn [x_lat x_long x_time x_val]. apply in_flat_map. exists (y, i). split; [exact Iy|].
    apply in_flat_map. exists (x, j). split; [exact Ix|]. apply in_map_iff. exists (day, k). cbn [fst snd]. split.
    + rewrite (nth_error_nth _ _ _ J). cbn [snd]. rewrite V. reflexivity.
    + apply in_combine_fst. rewrite nth_error_map, J. reflexivity.
Qed.
Lemma load_amsr_steps proj agg data_name b t0 t1 ys xs files : (exists f, In f files /\ (t0 <= fst f <= t1)%Z) ->
  (forall n, data_name = Some n -> ~ In n ["lat"; "long"; "time"]%string) ->
  load_amsr proj (1, 1)%Z agg data_name b t0 t1 ys xs files =
  construct_df b (map (move proj) (filter complete (xr_points (amsr_grid (filter (fun f => ((t0 <=? fst f) && (fst f <=? t1))%Z) files) ys xs)))).
Proof.
  intros (f & I & R) H. unfold load_amsr, import_amsr.
  set (fs := filter (fun f => ((t0 <=? fst f) && (fst f <=? t1))%Z) files).
  assert (J : In f fs) by (apply filter_In; split; [exact I|]; apply andb_true_iff; lia).
  match goal with |- bind ?m _ = _ => replace m with (@Ok gridded (mkGridded "x" "y" ["SIC"%string] (amsr_grid fs ys xs))) end.
  2:{ clearbody fs. destruct fs; [destruct J|reflexivity]. }
  cbn [bind downsample_gridded fst snd Z.eqb Pos.eqb andb].
  destruct (grid_rows "x" "y" proj (mkGridded "x" "y" ["SIC"%string] (amsr_grid fs ys xs))) as (t' & E' & P & D).
  - repeat split; try discriminate; [repeat constructor; intros []|]. intros v [<-|[]] K. cbn in K. intuition discriminate.
  - reflexivity.
  - reflexivity.
  - intros p Ip. cbn [n_ds n_vars] in *. unfold xr_points, amsr_grid in Ip. cbn [x_lat x_long x_time x_val] in Ip. apply in_flat_map in Ip. destruct Ip as (la & _ & Ip).
    apply in_flat_map in Ip. destruct Ip as (lo & _ & Ip). apply in_map_iff in Ip. destruct Ip as (t & <- & _). reflexivity.
  - rewrite E'. cbn [bind]. destruct (name_points data_name t' "SIC" D H) as (nt & N & PN). rewrite N. cbn [bind]. rewrite PN, P. reflexivity.
Qed.

(** Visual_Ice. *)
Lemma last_ending stem e : lacks "." e -> last (split "." (stem ++ String "." e)) ""%string = e.
Proof. intros F. rewrite FilesProofs.split_spl, FilesProofs.spl_app, (FilesProofs.spl_free _ e F). apply last_last. Qed.
Definition percent_grid (ds : xrds) : xrds := mkXr (x_lat ds) (x_long ds) (x_time ds) (fun i j k => percentage (x_val ds i j k)).
Definition percent_point (p : point) : point := mkP (p_lat p) (p_long p) (p_time p) (percentage (p_vals p)).
Lemma percent_points ds : xr_points (percent_grid ds) = map percent_point (xr_points ds).
Proof.
  unfold xr_points, percent_grid. cbn [x_lat x_long x_time x_val]. induction (x_lat ds) as [|la l IH]; [reflexivity|]. cbn [flat_map]. rewrite map_app, IH. f_equal.
  clear. induction (x_long ds) as [|lo l IH]; [reflexivity|]. cbn [flat_map]. rewrite map_app, IH. f_equal.
  destruct (x_time ds) as [ts|]; [rewrite map_map|]; reflexivity.
Qed.
Lemma percent_complete p : complete (percent_point p) = complete p.
Proof. unfold complete, percent_point, has_nan, percentage. cbn [p_vals]. induction (p_vals p) as [|[q|] l IH]; cbn in *; [reflexivity|exact IH|reflexivity]. Qed.
Lemma percent_filter d : filter complete (map percent_point d) = map percent_point (filter complete d).
Proof. induction d as [|p d IH]; [reflexivity|]. cbn [map filter]. rewrite percent_complete. destruct (complete p); cbn [map]; rewrite IH; reflexivity. Qed.
Lemma visual_iced_ok proj in_proj out_proj data_name b file ds d : plain_region b -> in_proj <> out_proj ->
  (exists stem, file = (stem ++ ".nc")%string \/ file = (stem ++ ".tiff")%string) -> (forall n, data_name = Some n -> ~ In n ["lat"; "long"; "time"]%string) ->
  (forall p, In p (xr_points ds) -> List.length (p_vals p) = 1%nat) -> selected all_known (xr_points ds) d ->
  (forall p, In p d -> -180 <= fst (proj (p_long p) (p_lat p)) <= 180) ->
  exists d0 d', load_visual_iced proj in_proj out_proj "x" "y" data_name b [file] ds = Ok d' /\
    Forall2 (fun p q => p_long q = fst (proj (p_long p) (p_lat p)) /\ p_lat q = snd (proj (p_long p) (p_lat p)) /\ p_time q = p_time p /\
                        exists v, p_vals p = [Some v] /\ p_vals q = [Some (v * 100)]) d d0 /\
    (reaches all_known b d0 -> selected (belongs b) d0 d').
Proof.
  intros R IO (stem & FE) N LV S LO.
  assert (E : last (split "." file) ""%string = "nc"%string \/ last (split "." file) ""%string = "tiff"%string).
  { destruct FE as [->| ->]; [left|right]; apply last_ending; intros K; cbn in K; intuition discriminate. }
  assert (S' := sel_filter_complete (xr_points ds)). rewrite (selected_unique _ _ _ _ S S') in *. clear S d.
  set (d := filter complete (xr_points ds)) in *.
  unfold load_visual_iced, import_visual_iced.
  assert (E2 : String.eqb (last (split "." file) ""%string) "tiff" || String.eqb (last (split "." file) ""%string) "nc" = true) by (destruct E as [-> | ->]; reflexivity).
  rewrite E2. cbn [bind]. rewrite (proj2 (String.eqb_neq _ _) IO).
  destruct (grid_rows "x" "y" proj (mkGridded "x" "y" ["SIC"%string] (percent_grid ds))) as (t' & E' & P & D).
  - repeat split; try discriminate; [repeat constructor; intros []|]. intros v [<-|[]] K. cbn in K. intuition discriminate.
  - reflexivity.
  - reflexivity.
  - intros p I. cbn [n_ds n_vars] in *. rewrite percent_points in I. apply in_map_iff in I. destruct I as (q & <- & I). cbn. unfold percentage. rewrite map_length. apply LV, I.
  - change (mkXr _ _ _ _) with (percent_grid ds). rewrite E'. cbn [bind]. destruct (name_points data_name t' "SIC" D N) as (nt & NN & PN). rewrite NN. cbn [bind]. rewrite PN, P.
    cbn [n_ds]. rewrite percent_points, percent_filter. fold d.
    set (d0 := map (move proj) (map percent_point d)).
    destruct (construct_df_ok b d0 R) as (d' & C & H).
    { intros p I _. unfold d0 in I. rewrite map_map in I. apply in_map_iff in I. destruct I as (q & <- & I). cbn. apply LO, I. }
    exists d0, d'. split; [exact C|]. split.
    + unfold d0. rewrite map_map. assert (X : forall p, In p d -> exists v, p_vals p = [Some v]).
      { intros p I. apply filter_In in I. destruct I as (I & K). apply complete_known in K. specialize (LV p I).
        destruct (p_vals p) as [|[v|] [|? ?]] eqn:V; try discriminate; [eauto|]. exfalso. apply K. rewrite V. left; reflexivity. }
      clear - X. induction d as [|p d IH]; cbn [map]; constructor; [|apply IH; intros; apply X; right; auto].
      destruct (X p (or_introl eq_refl)) as (v & V). repeat split. exists v. split; [exact V|]. cbn. rewrite V. reflexivity.
    + intros Z. destruct H as [[_ H]|[H _]]; [exact H|contradiction].
Qed.
(** ** Rows kept *)
Lemma nth_keep : forall {A} mask (l : list A) k d, List.length mask = List.length l ->
  nth k (map snd (filter fst (combine mask l))) d = nth (nth k (map snd (filter fst (combine mask (seq 0 (List.length l))))) (List.length l)) l d.
Proof.
  assert (G : forall A mask (l pre : list A) k d, List.length mask = List.length l ->
    nth k (map snd (filter fst (combine mask l))) d =
    nth (nth k (map snd (filter fst (combine mask (seq (List.length pre) (List.length l))))) (List.length (pre ++ l))) (pre ++ l) d).
  { intros A mask. induction mask as [|m mask IH]; intros [|x l] pre k d E; try discriminate.
    - destruct k; cbn [combine filter map nth]; rewrite nth_overflow by lia; reflexivity.
    - cbn [combine seq List.length filter]. injection E as E. specialize (IH l (pre ++ [x])%list). rewrite app_length, Nat.add_1_r, <- app_assoc in IH. cbn [app] in IH.
      cbn [fst]. destruct m; [|apply IH; exact E]. cbn [map snd]. destruct k as [|k]; [|apply IH; exact E]. cbn [nth]. rewrite app_nth2, Nat.sub_diag by lia. reflexivity. }
  intros A mask l k d E. exact (G A mask l [] k d E).
Qed.
Lemma keep_names : forall mask t, data_names (keep_rows mask t) = data_names t.
Proof. intros mask t. unfold data_names, keep_rows. rewrite map_map. reflexivity. Qed.
Lemma sget_keep : forall mask t c, sget (keep_rows mask t) c = option_map (fun l => map snd (filter fst (combine mask l))) (sget t c).
Proof. intros mask t c. induction t as [|[a l] t IH]; [reflexivity|]. cbn. destruct (String.eqb c a); [reflexivity|exact IH]. Qed.
Lemma keep_points : forall f n t, well_formed n t -> t <> [] -> table_points (keep_rows (map f (table_points t)) t) = filter f (table_points t).
Proof.
  intros f n t [_ W] N. set (mask := map f (table_points t)).
  assert (Nr : n_rows t = n) by (destruct t as [|[c l] t']; [contradiction|]; cbn; apply (W c); left; reflexivity).
  assert (Lm : List.length mask = n) by (unfold mask, table_points; rewrite !map_length, seq_length; exact Nr).
  set (ks := map snd (filter fst (combine mask (seq 0 n)))).
  assert (Nk : n_rows (keep_rows mask t) = List.length ks).
  { destruct t as [|[c l] t']; [contradiction|]. cbn [n_rows keep_rows map snd fst]. unfold ks. rewrite !map_length.
    assert (Ll : List.length l = n) by (apply (W c); left; reflexivity). clear ks. clearbody mask. clear - Lm Ll. revert l n Lm Ll. generalize 0%nat. induction mask as [|m mask IH]; intros k l n Lm Ll; [reflexivity|].
    destruct l as [|x l], n as [|n]; try discriminate. injection Lm as Lm. injection Ll as Ll. cbn [seq combine filter fst]. destruct m; cbn [List.length]; [f_equal|]; apply IH; assumption. }
  assert (Row : forall k, (k < List.length ks)%nat -> row_point (keep_rows mask t) k = row_point t (nth k ks n)).
  { intros k Lk. unfold row_point. rewrite keep_names. assert (Get : forall c, match sget (keep_rows mask t) c with Some l => nth k l (ENum None) | None => ENum None end =
      match sget t c with Some l => nth (nth k ks n) l (ENum None) | None => ENum None end).
    { intros c. rewrite sget_keep. destruct (sget t c) as [l|] eqn:S; [|reflexivity]. cbn [option_map]. assert (Ll : List.length l = n).
      { clear - W S. induction t as [|[a m] t IH]; [discriminate|]. cbn in S. destruct (String.eqb_spec c a); [injection S as ->; apply (W a); left; reflexivity|].
        apply IH; [intros; apply (W c0); right; assumption|exact S]. }
      rewrite (nth_keep mask l k (ENum None)) by congruence. rewrite Ll. reflexivity. }
    rewrite !Get. f_equal. apply map_ext. intros nm. rewrite Get. reflexivity. }
  unfold table_points at 1. rewrite Nk.
  transitivity (map (row_point t) ks).
  - transitivity (map (fun k => row_point t (nth k ks n)) (seq 0 (List.length ks))).
    + apply map_ext_in. intros k I. apply in_seq in I. apply Row. lia.
    + clear. induction ks as [|a ks IH]; [reflexivity|]. cbn [List.length seq map nth]. f_equal. rewrite <- seq_shift, map_map. exact IH.
  - unfold ks, mask, table_points. rewrite Nr. clear. generalize (seq 0 n). intros l. rewrite map_map. induction l as [|k l IH]; [reflexivity|].
    cbn [map combine filter fst]. destruct (f (row_point t k)); cbn [map snd]; [f_equal|]; exact IH.
Qed.
