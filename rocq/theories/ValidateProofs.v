(** Proofs about the mesh validators. *)
From Coq Require Import Permutation.
From Verif Require Import Base QLib Geo Graph Cell Loaders Builder Env Spec MeshSpec EnvSpec EnvQuery Validate ValidateSpec.
Open Scope Z_scope.

(** ** Slices *)
Lemma region_plane : forall b, plane_bounds b -> region b = Box (long_min b) (long_max b) (lat_min b) (lat_max b).
Proof. intros b ((H & _) & _). unfold region. assert (qltb (long_min b) (long_max b) = true) as -> by (apply qltb_true, H). reflexivity. Qed.
Lemma filter_filter {A} : forall (f g : A -> bool) l, filter f (filter g l) = filter (fun x => g x && f x) l.
Proof. induction l as [|x l IH]; [reflexivity|]. cbn. destruct (g x); cbn; [destruct (f x)|]; rewrite IH; reflexivity. Qed.
Definition in_slice (b : boundary) (p : point) : bool :=
  between (p_lat p) (lat_min b) (lat_max b) && between (p_long p) (long_min b) (long_max b).
Lemma slice_filter : forall src b, slice_data src b = filter (in_slice b) src.
Proof. intros. unfold slice_data, in_slice. apply filter_filter. Qed.
Lemma in_slice_closed : forall b p, plane_bounds b -> in_slice b p = true <-> closed (region b) (p_long p) (p_lat p).
Proof.
  intros b p H. rewrite (region_plane b H). unfold in_slice, between, closed. cbn [x0 x1 y0 y1].
  rewrite !andb_true_iff, !qleb_true. tauto.
Qed.
Theorem slice_exact : forall src b p, plane_bounds b ->
  In p (slice_data src b) <-> In p src /\ closed (region b) (p_long p) (p_lat p).
Proof. intros src b p H. rewrite slice_filter, filter_In, (in_slice_closed b p H). tauto. Qed.
Lemma slice_crossing : forall src b, (long_max b < long_min b)%Q -> slice_data src b = [].
Proof.
  intros src b H. rewrite slice_filter. induction src as [|p src IH]; [reflexivity|]. cbn [filter].
  assert (in_slice b p = false) as ->; [|exact IH]. unfold in_slice, between.
  destruct (qleb (long_min b) (p_long p)) eqn:E1, (qleb (p_long p) (long_max b)) eqn:E2; qhyp; rewrite ?andb_false_r; try reflexivity; exfalso; lra.
Qed.

Theorem slice_covers : forall whole cs p, plane_cells cs -> env_tiles whole cs -> mem whole (p_long p) (p_lat p) ->
  exists c, In c cs /\ closed (region (e_bounds c)) (p_long p) (p_lat p).
Proof.
  intros whole cs p _ (C & _) M. destruct (C _ _ M) as (c & I & [A B]). exists c. split; [exact I|]. unfold closed. lra.
Qed.
Lemma interior_mem : forall b x y, interior b x y -> mem b x y.
Proof. unfold interior, mem. intros. lra. Qed.
Theorem slice_once : forall whole cs p, plane_cells cs -> env_tiles whole cs -> mem whole (p_long p) (p_lat p) -> off_edges cs p ->
  exists c, In c cs /\ interior (region (e_bounds c)) (p_long p) (p_lat p) /\
    forall c', In c' cs -> closed (region (e_bounds c')) (p_long p) (p_lat p) -> c' = c.
Proof.
  intros whole cs p P T M O. destruct (slice_covers whole cs p P T M) as (c & I & C). exists c. split; [exact I|].
  split; [apply (O c I C)|]. intros c' I' C'. destruct T as (_ & _ & U).
  assert (e_id c' = e_id c) as E.
  { apply (U c' c (p_long p) (p_lat p) I' I); apply interior_mem, O; assumption. }
  destruct P as [N _]. revert I I' N E. clear. induction cs as [|x cs IH]; [intros []|]. cbn [map].
  intros [<-|I] [<-|I'] N E; [reflexivity| | |]; inversion N; subst.
  - exfalso. apply H1. rewrite <- E. apply in_map, I'.
  - exfalso. apply H1. rewrite E. apply in_map, I.
  - exact (IH I I' H2 E).
Qed.

(** ** validate_scalar *)
Lemma flat_map_app_perm {A B} : forall (f g : A -> list B) l,
  Permutation (flat_map (fun x => f x ++ g x) l) (flat_map f l ++ flat_map g l)%list.
Proof.
  induction l as [|x l IH]; [reflexivity|]. cbn [flat_map]. rewrite IH, <- !app_assoc. apply Permutation_app_head.
  rewrite !app_assoc. apply Permutation_app_tail. apply Permutation_app_comm.
Qed.
Lemma flat_map_swap {A B C} : forall (f : A -> B -> list C) la lb,
  Permutation (flat_map (fun a => flat_map (f a) lb) la) (flat_map (fun b => flat_map (fun a => f a b) la) lb).
Proof.
  intros f la. induction la as [|a la IH]; intros lb; cbn [flat_map].
  - induction lb; [reflexivity|exact IHlb].
  - rewrite IH. symmetry. apply flat_map_app_perm.
Qed.
Lemma filter_map_flat {A B} : forall (f : A -> bool) (g : A -> B) l,
  map g (filter f l) = flat_map (fun x => if f x then [g x] else []) l.
Proof. induction l as [|x l IH]; [reflexivity|]. cbn. destruct (f x); cbn; rewrite IH; reflexivity. Qed.

Definition cell_num (c : ecell) (name : string) : Q := match sget (e_data c) name with Some (JNum (Some v)) => v | _ => 0%Q end.
Definition err (name : string) (i : nat) (c : ecell) (p : point) : option Q :=
  option_map (fun a => qabs (a - cell_num c name)) (nth i (p_vals p) None).
Lemma err_is : forall name i c p v, holds_num c name v -> error_is (err name i c p) (nth i (p_vals p) None) v.
Proof.
  intros name i c p v H. unfold err, cell_num. rewrite H. destruct (nth i (p_vals p) None) as [x|]; [|exact I].
  cbn [option_map error_is]. unfold qabs. destruct (qltb (x - v) 0) eqn:E; qhyp; [left|right]; lra.
Qed.
Lemma mapM_map {A B} : forall (f : A -> res B) (g : A -> B) l, (forall x, In x l -> f x = Ok (g x)) -> mapM f l = Ok (map g l).
Proof.
  induction l as [|x l IH]; intros H; [reflexivity|]. cbn [mapM map]. rewrite (H x (or_introl eq_refl)). cbn [bind].
  rewrite IH; [reflexivity|]. intros y I. apply H. right. exact I.
Qed.
Theorem scalar_errors_pairs : forall cs src i name, (forall c, In c cs -> exists v, holds_num c name v) ->
  scalar_errors cs src i name = Ok (flat_map (fun c => map (err name i c) (slice_data src (e_bounds c))) cs).
Proof.
  intros cs src i name H. unfold scalar_errors.
  assert (forall cs acc, (forall c, In c cs -> exists v, holds_num c name v) ->
    foldM (fun acc c => v <- agg_value c name ;; es <- mapM (error_of v) (column i (slice_data src (e_bounds c))) ;; Ok (acc ++ es)%list) acc cs
    = Ok (acc ++ flat_map (fun c => map (err name i c) (slice_data src (e_bounds c))) cs)%list) as X.
  { clear. induction cs as [|c cs IH]; intros acc H; [cbn; rewrite app_nil_r; reflexivity|].
    cbn [foldM flat_map]. destruct (H c (or_introl eq_refl)) as (v & E). unfold agg_value. rewrite E. cbn [bind].
    unfold column. rewrite (mapM_map _ (option_map (fun a => qabs (a - v)))).
    - cbn [bind]. rewrite IH by (intros c' I; apply H; right; exact I). rewrite map_map, <- app_assoc. f_equal. f_equal. f_equal.
      apply map_ext. intros p. unfold err, cell_num. rewrite E. reflexivity.
    - intros [x|] _; reflexivity. }
  rewrite X by exact H. reflexivity.
Qed.
(** With no point on an edge every source point counts exactly once, against
    the cell it lies in. *)
Theorem pairs_once {X} (err : ecell -> point -> X) : forall whole cs src, plane_cells cs -> env_tiles whole cs ->
  (forall p, In p src -> mem whole (p_long p) (p_lat p) /\ off_edges cs p) ->
  exists cell_of,
    (forall p, In p src -> In (cell_of p) cs /\ interior (region (e_bounds (cell_of p))) (p_long p) (p_lat p)) /\
    Permutation (flat_map (fun c => map (err c) (slice_data src (e_bounds c))) cs) (map (fun p => err (cell_of p) p) src).
Proof.
  intros whole cs src P T H.
  set (inside := fun p c => in_slice (e_bounds c) p).
  set (dummy := mkE (mkB 0 0 0 0 []) [] 0).
  set (cell_of := fun p => match filter (inside p) cs with c :: _ => c | [] => dummy end).
  assert (forall p, In p src -> exists c, filter (inside p) cs = [c] /\ In c cs /\ interior (region (e_bounds c)) (p_long p) (p_lat p)) as S.
  { intros p I. destruct (H p I) as [M O]. destruct (slice_once whole cs p P T M O) as (c & Ic & Int & U). exists c.
    split; [|split; assumption]. destruct P as [N PB].
    assert (forall c', In c' cs -> inside p c' = true -> c' = c) as U'.
    { intros c' I' E. apply U; [exact I'|]. apply in_slice_closed; [apply PB, I'|exact E]. }
    assert (inside p c = true) as Ec.
    { unfold inside. apply in_slice_closed; [apply PB, Ic|]. unfold closed. unfold interior in Int. lra. }
    apply (NoDup_map_inv e_id) in N. revert Ic N U' Ec. clear. induction cs as [|x cs IH]; [intros []|].
    intros Ic N U' Ec. inversion N; subst. cbn [filter]. destruct (inside p x) eqn:E.
    - pose proof (U' x (or_introl eq_refl) E). subst x. f_equal.
      assert (forall y, In y cs -> inside p y = false) as Z.
      { intros y Iy. destruct (inside p y) eqn:Ey; [|reflexivity]. exfalso. apply H1. rewrite <- (U' y (or_intror Iy) Ey). exact Iy. }
      revert Z. clear. induction cs as [|y cs IH]; intros Z; [reflexivity|]. cbn [filter]. rewrite (Z y (or_introl eq_refl)).
      apply IH. intros z I. apply Z. right. exact I.
    - destruct Ic as [->|Ic]; [congruence|]. apply IH; [exact Ic|exact H2| |exact Ec]. intros y I. apply U'. right. exact I. }
  exists cell_of. split.
  - intros p I. destruct (S p I) as (c & E & Ic & Int). unfold cell_of. rewrite E. tauto.
  - assert (flat_map (fun c => map (err c) (slice_data src (e_bounds c))) cs =
            flat_map (fun c => flat_map (fun p => if inside p c then [err c p] else []) src) cs) as ->.
    { apply flat_map_ext. intros c. rewrite slice_filter, filter_map_flat. reflexivity. }
    rewrite flat_map_swap.
    assert (forall l, (forall p, In p l -> In p src) ->
      flat_map (fun b => flat_map (fun a => if inside b a then [err a b] else []) cs) l = map (fun p => err (cell_of p) p) l) as Y.
    { induction l as [|p l IH]; intros Sub; [reflexivity|]. cbn [flat_map map]. rewrite IH by (intros q I; apply Sub; right; exact I).
      rewrite <- (filter_map_flat (inside p) (fun a => err a p) cs).
      destruct (S p (Sub p (or_introl eq_refl))) as (c & E & _).
      assert (cell_of p = c) as -> by (unfold cell_of; rewrite E; reflexivity). rewrite E. reflexivity. }
    rewrite Y by tauto. reflexivity.
Qed.


Theorem errors_once : forall whole cs src i name, plane_cells cs -> env_tiles whole cs ->
  (forall c, In c cs -> exists v, holds_num c name v) ->
  (forall p, In p src -> mem whole (p_long p) (p_lat p) /\ off_edges cs p) ->
  exists es cell_of, scalar_errors cs src i name = Ok es /\
    (forall p, In p src -> In (cell_of p) cs /\ interior (region (e_bounds (cell_of p))) (p_long p) (p_lat p)) /\
    Permutation es (map (fun p => err name i (cell_of p) p) src).
Proof.
  intros whole cs src i name P T V H. destruct (pairs_once (err name i) whole cs src P T H) as (cell_of & C & Pm).
  eexists. exists cell_of. split; [apply scalar_errors_pairs, V|]. split; assumption.
Qed.
(** Means. *)
Lemma known_drop : forall l, known_count l = List.length (drop_nan l) /\ (known_sum l == qsum (drop_nan l))%Q.
Proof.
  induction l as [|[q|] l (IC & IS)]; cbn [known_count known_sum]; [split; reflexivity| |].
  - change (drop_nan (Some q :: l)) with (q :: drop_nan l). cbn [List.length]. unfold qsum in *. cbn [fold_right]. split; [congruence|rewrite IS; reflexivity].
  - change (drop_nan (None :: l)) with (drop_nan l). auto.
Qed.
Lemma col_mean_is : forall l, mean_is l (col_mean l).
Proof.
  intros l. unfold col_mean. destruct (known_drop l) as (C & S). destruct (drop_nan l) as [|x xs] eqn:E; [exact C|]. unfold mean_is.
  split; [rewrite C; cbn; lia|]. rewrite S, C. unfold qmean, qlen. field. change 0%Q with (inject_Z 0). rewrite inject_Z_injective. cbn. lia.
Qed.

(** Vectors. *)
Definition verr (nx ny : string) (i j : nat) (c : ecell) (p : point) : option Q :=
  match nth i (p_vals p) None, nth j (p_vals p) None with
  | Some x, Some y => Some (square (x - cell_num c nx) + square (y - cell_num c ny))%Q
  | _, _ => None
  end.
Lemma verr_is : forall nx ny i j c p a b, holds_num c nx a -> holds_num c ny b ->
  distance2_is (verr nx ny i j c p) (nth i (p_vals p) None) (nth j (p_vals p) None) a b.
Proof.
  intros nx ny i j c p a b Ha Hb. unfold verr, distance2_is, cell_num. rewrite Ha, Hb.
  destruct (nth i (p_vals p) None) as [x|]; [|reflexivity]. destruct (nth j (p_vals p) None) as [y|]; [|reflexivity]. eexists. split; [reflexivity|]. unfold square. reflexivity.
Qed.
Theorem vector_errors_pairs : forall cs src i j nx ny, (forall c, In c cs -> exists a b, holds_num c nx a /\ holds_num c ny b) ->
  vector_errors cs src i j nx ny = Ok (flat_map (fun c => map (verr nx ny i j c) (slice_data src (e_bounds c))) cs).
Proof.
  intros cs src i j nx ny H. unfold vector_errors.
  enough (X : forall acc, foldM (fun acc c => v <- agg_value c nx ;; w <- agg_value c ny ;; es <- mapM (vector_error v w i j) (slice_data src (e_bounds c)) ;; Ok (acc ++ es)%list) acc cs
    = Ok (acc ++ flat_map (fun c => map (verr nx ny i j c) (slice_data src (e_bounds c))) cs)%list) by (rewrite X; reflexivity).
  induction cs as [|c cs IH]; intros acc; [cbn; rewrite app_nil_r; reflexivity|].
  cbn [foldM flat_map]. destruct (H c (or_introl eq_refl)) as (a & b & Ea & Eb). unfold agg_value at 1 2. rewrite Ea, Eb. cbn [bind].
  rewrite (mapM_map _ (verr nx ny i j c)).
  - cbn [bind]. rewrite IH by (intros c' I; apply H; right; exact I). rewrite <- app_assoc. reflexivity.
  - intros p _. unfold vector_error, verr, cell_num. rewrite Ea, Eb. destruct (nth i (p_vals p) None), (nth j (p_vals p) None); reflexivity.
Qed.

(** ** Sampling *)
Lemma sample_in_range : forall r0 r1 s, (r0 <= r1 -> 0 <= s <= 1 -> r0 <= r0 + s * (r1 - r0) <= r1)%Q.
Proof. intros. nra. Qed.
Lemma range_end_spec : forall b lat long, (lat <= lat_max b -> long <= long_max b ->
  let e := get_range_end b lat long in lat <= fst e <= lat_max b /\ long <= snd e <= long_max b /\
    fst e <= lat + (1#10) /\ snd e <= long + (1#10))%Q.
Proof.
  intros b lat long H1 H2. unfold get_range_end, validation_length. cbn [fst snd].
  destruct (qltb (lat_max b) (lat + (1#10))) eqn:E1, (qltb (long_max b) (long + (1#10))) eqn:E2; qhyp; cbn zeta; repeat split; lra.
Qed.

(** ** validate_mesh *)
(** All (source, point) pairs a sample square selects, source by source. *)
Definition sampled (whole : loader -> data) (b : boundary) (srcs : list metadata) : list (metadata * point) :=
  flat_map (fun s => map (pair s) (df_trim b (whole (m_loader s)))) srcs.
Definition source_name (s : metadata) : string := join_names (l_names (m_loader s)).

Lemma sample_bounds_ok : forall mb lat long, valid_region mb ->
  (lat_min mb <= lat <= lat_max mb)%Q -> (long_min mb <= long <= long_max mb)%Q ->
  exists b, sample_bounds mb lat long = Ok b /\ lat_min b = lat /\ long_min b = long /\
    (lat <= lat_max b <= lat_max mb)%Q /\ (long <= long_max b <= long_max mb)%Q /\
    (lat_max b <= lat + (1#10))%Q /\ (long_max b <= long + (1#10))%Q /\ time_range b = time_range mb.
Proof.
  intros mb lat long ((V1 & V2 & V3 & V4) & V5) H1 H2. unfold sample_bounds.
  destruct (range_end_spec mb lat long) as (A & B & C & D); [lra|lra|]. destruct (get_range_end mb lat long) as [e1 e2]. cbn [fst snd] in *.
  unfold Boundary. assert (qltb e1 lat = false) as -> by (apply qltb_false; lra).
  assert (qltb long (-180) = false) as -> by (apply qltb_false; lra). assert (qltb 180 e2 = false) as -> by (apply qltb_false; lra).
  cbn [orb]. destruct V5 as [->|(a & t & -> & L)].
  - eexists. split; [reflexivity|]. cbn. repeat split; lra.
  - assert ((t <? a) = false) as -> by (apply Z.ltb_ge; exact L). eexists. split; [reflexivity|]. cbn. repeat split; lra.
Qed.
Lemma find_interior : forall whole cs p, plane_cells cs -> env_tiles whole cs -> mem whole (p_long p) (p_lat p) -> off_edges cs p ->
  exists c, find (fun c => contains_point c (p_lat p) (p_long p)) cs = Some c /\ In c cs /\ interior (region (e_bounds c)) (p_long p) (p_lat p).
Proof.
  intros whole cs p P T M O. destruct (slice_once whole cs p P T M O) as (c & I & Int & _).
  destruct (find _ cs) as [x|] eqn:F.
  - exists x. apply find_some in F. destruct F as [Ix E]. split; [reflexivity|]. split; [exact Ix|].
    exact (proj1 (contains_plane x _ _ (proj2 P x Ix)) E).
  - exfalso. apply find_none with (x := c) in F; [|exact I]. rewrite (proj2 (contains_plane c _ _ (proj2 P c I)) Int) in F. discriminate.
Qed.
Lemma flat_map_map {A B C} : forall (f : B -> C) (g : A -> list B) l, flat_map (fun x => map f (g x)) l = map f (flat_map g l).
Proof. induction l as [|x l IH]; [reflexivity|]. cbn [flat_map]. rewrite map_app, IH. reflexivity. Qed.

Theorem values_aligned : forall whole mb m cs lat long srcs, valid_region mb -> plane_cells cs -> env_tiles (region mb) cs ->
  (lat_min mb <= lat <= lat_max mb)%Q -> (long_min mb <= long <= long_max mb)%Q -> first_sources m = Ok srcs ->
  (forall c s, In c cs -> In s srcs -> sget (e_data c) (source_name s) <> None) ->
  exists b, sample_bounds mb lat long = Ok b /\
    ((forall s p, In (s, p) (sampled whole b srcs) -> off_edges cs p) ->
     exists vs, values_from_data whole mb m lat long = Ok (map (fun sp => nth 0 (p_vals (snd sp)) None) (sampled whole b srcs)) /\
       values_from_mesh whole mb m cs lat long = Ok vs /\
       Forall2 (fun sp v => exists c, In c cs /\ interior (region (e_bounds c)) (p_long (snd sp)) (p_lat (snd sp)) /\
                              sget (e_data c) (source_name (fst sp)) = Some v) (sampled whole b srcs) vs).
Proof.
  intros whole mb m cs lat long srcs V P T H1 H2 FS HV.
  destruct (sample_bounds_ok mb lat long V H1 H2) as (b & E & B1 & B2 & B3 & B4 & _). exists b. split; [exact E|]. intros OE.
  unfold values_from_data, values_from_mesh. rewrite E, FS. cbn [bind].
  assert (forall p, df_spatial b p = true -> mem (region mb) (p_long p) (p_lat p)) as Mem.
  { intros p S. destruct V as ((V1 & _) & _). unfold region. assert (qltb (long_min mb) (long_max mb) = true) as -> by (apply qltb_true, V1).
    unfold mem. cbn [x0 x1 y0 y1]. unfold df_spatial in S. rewrite B1, B2 in S.
    destruct (qltb long (long_max b)) eqn:L; rewrite !andb_true_iff, !qltb_true, !qleb_true in S; [lra|exfalso; lra]. }
  assert (forall ss, (forall s, In s ss -> In s srcs) ->
    exists vss, mapM (fun s => vs <- mapM (mesh_value_at cs (join_names (l_names (m_loader s)))) (df_trim b (whole (m_loader s))) ;; Ok (List.concat vs)) ss = Ok vss /\
      Forall2 (fun sp v => exists c, In c cs /\ interior (region (e_bounds c)) (p_long (snd sp)) (p_lat (snd sp)) /\
                              sget (e_data c) (source_name (fst sp)) = Some v) (sampled whole b ss) (List.concat vss)) as X.
  { induction ss as [|s ss IH]; intros Sub; [exists []; split; [reflexivity|constructor]|].
    destruct IH as (vss & F & R); [intros x I; apply Sub; right; exact I|].
    pose proof (Sub s (or_introl eq_refl)) as Is.
    assert (forall ps, (forall p, In p ps -> In p (df_trim b (whole (m_loader s)))) ->
      exists vs, mapM (mesh_value_at cs (source_name s)) ps = Ok vs /\
        Forall2 (fun sp v => exists c, In c cs /\ interior (region (e_bounds c)) (p_long (snd sp)) (p_lat (snd sp)) /\
                              sget (e_data c) (source_name (fst sp)) = Some v) (map (pair s) ps) (List.concat vs)) as Y.
    { induction ps as [|p ps IHp]; intros Subp; [exists []; split; [reflexivity|constructor]|].
      destruct IHp as (vs & Fp & Rp); [intros x I; apply Subp; right; exact I|].
      pose proof (Subp p (or_introl eq_refl)) as Ip.
      assert (df_spatial b p = true) as Sp.
      { pose proof Ip as Ip'. unfold df_trim in Ip'. apply filter_In in Ip'. destruct Ip' as [_ Sp]. apply andb_true_iff in Sp. apply Sp. }
      assert (off_edges cs p) as Op.
      { apply (OE s p). unfold sampled. apply in_flat_map. exists s. split; [exact Is|apply in_map, Ip]. }
      destruct (find_interior (region mb) cs p P T (Mem p Sp) Op) as (c & Fc & Ic & Int).
      destruct (sget (e_data c) (source_name s)) as [v|] eqn:Ev; [|exfalso; exact (HV c s Ic Is Ev)].
      exists ([v] :: vs). split.
      - cbn [mapM]. unfold mesh_value_at at 1. rewrite Fc. unfold agg_value. rewrite Ev. cbn [bind]. rewrite Fp. reflexivity.
      - cbn [map List.concat app]. constructor; [|exact Rp]. exists c. split; [exact Ic|]. split; [exact Int|exact Ev]. }
    destruct (Y (df_trim b (whole (m_loader s))) (fun p I => I)) as (vs & Fs & Rs).
    exists (List.concat vs :: vss). split.
    - cbn [mapM]. unfold source_name in Fs. rewrite Fs. cbn [bind]. rewrite F. reflexivity.
    - cbn [List.concat]. unfold sampled. cbn [flat_map]. apply Forall2_app; [exact Rs|exact R]. }
  destruct (X srcs (fun s I => I)) as (vss & F & R). exists (List.concat vss). split; [|split; [|exact R]].
  - f_equal. unfold sampled, column. rewrite <- flat_map_map. apply flat_map_ext. intros s. rewrite map_map. reflexivity.
  - rewrite F. reflexivity.
Qed.
(** Once the first cell has been split every validation fails. *)
Theorem first_split_fails : forall whole mb m cs rest lat long more b, cells m = None :: rest -> sample_bounds mb lat long = Ok b ->
  validate_mesh whole mb m cs ((lat, long) :: more) = Err AttributeError.
Proof.
  intros whole mb m cs rest lat long more b C E. unfold validate_mesh, values_from_data, first_sources. cbn [mapM fst snd].
  rewrite E, C. reflexivity.
Qed.
