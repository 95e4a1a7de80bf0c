(** Proofs about imported forecasts. *)
From Coq Require Import Permutation.
From Verif Require Import Base QLib Geo Graph Cell Loaders Builder Env Construct Spec MeshSpec DataSpec TrimProofs XrProofs ConstructSpec ConstructProofs
  Downsample Import ImportSpec ImportProofs Dates PyStr DateSpec Files FilesSpec FilesProofs PropsFiles Forecast ForecastSpec.
Open Scope Q_scope.

Lemma percent_rows : forall ds run t0 n, (run < t0)%Z ->
  map (fun p => mkP (p_lat p) (p_long p) (p_time p) (map (option_map (fun x => x * 100)) (p_vals p))) (icenet_rows ds run (zrange (t0 - run) (t0 - run + Z.of_nat n))) = predictions ds run t0 n.
Proof.
  intros ds run t0 n L. unfold icenet_rows, predictions, zrange. rewrite map_flat_map, flat_map_map.
  replace (Z.to_nat (t0 - run + Z.of_nat n - (t0 - run))) with n by lia. apply flat_map_ext. intros k. rewrite map_map. apply map_ext. intros c. cbn [p_lat p_long p_time p_vals map].
  replace (run + (t0 - run + Z.of_nat k))%Z with (t0 + Z.of_nat k)%Z by lia. replace (t0 + Z.of_nat k - run)%Z with (t0 - run + Z.of_nat k)%Z by lia. reflexivity.
Qed.
Lemma trim_map : forall b (f : point -> point) d, (forall p, p_lat (f p) = p_lat p /\ p_long (f p) = p_long p /\ p_time (f p) = p_time p) ->
  map f (df_trim b d) = df_trim b (map f d).
Proof.
  intros b f d H. unfold df_trim. induction d as [|p d IH]; [reflexivity|]. cbn [filter map].
  assert (E : df_spatial b (f p) && in_time b (f p) = df_spatial b p && in_time b p).
  { destruct (H p) as (E1 & E2 & E3). unfold df_spatial, in_time. rewrite E1, E2, E3. reflexivity. }
  rewrite E. destruct (df_spatial b p && in_time b p); cbn [map]; rewrite IH; reflexivity.
Qed.
Lemma icenet_import : forall open b t0 t1 files c f, icenet_file t0 files = Ok (c, f) ->
  forall run leads, icenet_leads t0 t1 c (i_runs (open f)) (i_leads (open f)) = Ok (run, leads) -> (t0 <= t1)%Z ->
  last_before (i_runs (open f)) t0 run /\ import_icenet open b t0 t1 files = Ok (df_trim b (predictions (open f) run t0 (Z.to_nat (t1 - t0)))).
Proof.
  intros open b t0 t1 files c f E run leads L Le. pose proof (C68_days_partial t0 t1 c (i_runs (open f)) (i_leads (open f)) Le) as D. rewrite L in D.
  destruct D as (D1 & D2 & D3 & _). split; [split; [exact D1|split; assumption]|].
  unfold import_icenet. rewrite E. cbn [bind fst snd]. rewrite L. cbn [bind fst snd]. f_equal. rewrite trim_map by (intros p; repeat split). f_equal.
  rewrite <- percent_rows by exact D2. f_equal. f_equal. unfold icenet_leads in L. destruct (negb (t1 - t0 <? i_leads (open f))%Z); [discriminate|].
  destruct (negb (t1 <? c + i_leads (open f))%Z); [discriminate|]. destruct (search _ _ _ _) as [a|]; [|discriminate].
  destruct (negb (t1 - t0 <? i_leads (open f) - a)%Z); [discriminate|]. injection L as <- <-. f_equal; lia.
Qed.
Lemma trimmed_keeps : forall b d, plain_region b -> longs_in_range all_known d -> (forall p, In p d -> belongs b p) -> construct_df b d = Ok d.
Proof.
  intros b d R L B. destruct (construct_df_ok b d R L) as (d' & E & [[_ S]|[_ ->]]); [|exact E]. rewrite E. f_equal.
  clear - S B. induction S as [|x l l' P S IH|x l l' P S IH]; [reflexivity| |exfalso; apply P, B; left; reflexivity].
  f_equal. apply IH. intros p I. apply B. right. exact I.
Qed.
Lemma icenet_loads : forall open b t0 t1 files c f run leads, plain_region b -> time_range b = [t0; t1] -> (t0 <= t1)%Z -> icenet_file t0 files = Ok (c, f) ->
  icenet_leads t0 t1 c (i_runs (open f)) (i_leads (open f)) = Ok (run, leads) ->
  exists d, load_icenet open b t0 t1 files = Ok d /\ selected (belongs b) (predictions (open f) run t0 (Z.to_nat (t1 - t0))) d.
Proof.
  intros open b t0 t1 files c f run leads R T Le E L. destruct (icenet_import open b t0 t1 files c f E run leads L Le) as [_ I].
  destruct R as (R1 & R2 & R3 & R4 & R5). assert (R : plain_region b) by (repeat split; assumption).
  pose proof (df_trim_selects b (predictions (open f) run t0 (Z.to_nat (t1 - t0))) R2 R5) as S. eexists. split; [|exact S].
  unfold load_icenet. rewrite I. cbn [bind]. apply trimmed_keeps; [exact R| |].
  - intros p J _. apply (selected_In _ _ _ _ S) in J as [_ [[J _] _]]. unfold region in J. cbn [x0 x1] in J. destruct J. destruct (qltb_spec (long_min b) (long_max b)); lra.
  - intros p J. apply (selected_In _ _ _ _ S) in J. apply J.
Qed.
Lemma leads_ok : forall t0 t1 c runs leads run, (t0 <= t1)%Z -> last_before runs t0 run -> (t1 < run + leads)%Z -> (t1 < c + leads)%Z ->
  exists ahead, icenet_leads t0 t1 c runs leads = Ok (run, ahead).
Proof.
  intros t0 t1 c runs leads run L (I & B & M) R C. unfold icenet_leads.
  destruct (Z.ltb_spec (t1 - t0) leads) as [A|A]; [|lia]. destruct (Z.ltb_spec t1 (c + leads)) as [A'|A']; [|lia]. cbn [negb].
  pose proof (search_ok runs t0 (Z.to_nat leads) 1) as F. destruct (search runs t0 1 (Z.to_nat leads)) as [a|].
  - destruct F as (Ra & Ia & Mi). assert (t0 - a = run)%Z as <-.
    { destruct (Z.lt_trichotomy (t0 - a) run) as [X|[X|X]]; [|exact X|specialize (M _ Ia); lia].
      exfalso. apply (Mi (t0 - run)%Z); [lia|]. replace (t0 - (t0 - run))%Z with run by lia. exact I. }
    destruct (Z.ltb_spec (t1 - t0) (leads - a)) as [D|D]; [|lia]. cbn [negb]. eexists. reflexivity.
  - exfalso. apply (F (t0 - run)%Z); [lia|]. replace (t0 - (t0 - run))%Z with run by lia. exact I.
Qed.

(** ** Trimming by hours *)
Lemma sel_increasing : forall (axis : list (Q * nat)) lo hi, increasing axis -> sel_slice qleb lo hi axis = Ok (filter (fun x => qleb lo (fst x) && qleb (fst x) hi) axis).
Proof. intros axis lo hi A. unfold sel_slice. rewrite (increasing_monotone _ A). reflexivity. Qed.
Lemma trim_axes : forall b ds, long_min b < long_max b -> increasing (x_lat ds) -> increasing (x_long ds) -> x_time ds = None ->
  exists tr, xr_trim b ds = Ok tr /\
    (forall la, In la (x_lat tr) <-> In la (x_lat ds) /\ lat_min b < fst la <= lat_max b) /\
    (forall lo, In lo (x_long tr) <-> In lo (x_long ds) /\ long_min b < fst lo <= long_max b).
Proof.
  intros b ds L A B N. unfold xr_trim. rewrite (sel_increasing _ _ _ A). cbn [bind].
  assert (E : qltb (long_min b) (long_max b) = true) by (apply qltb_true; exact L). rewrite E, (sel_increasing _ _ _ B), N. cbn [bind].
  eexists. split; [reflexivity|]. cbn [x_lat x_long].
  split; intros x; rewrite !filter_In, andb_true_iff, !qleb_true, negb_true_iff; (split; [intros [[I [H1 H2]] H3]; split; [exact I|]|intros [I [H1 H2]]; split; [split; [exact I|lra]|]]).
  - destruct (qeqb_spec (fst x) (lat_min b)); [discriminate|]. split; [|exact H2]. destruct (Qlt_le_dec (lat_min b) (fst x)); [assumption|]. exfalso. apply n. apply Qle_antisym; assumption.
  - destruct (qeqb_spec (fst x) (lat_min b)); [exfalso; lra|reflexivity].
  - destruct (qeqb_spec (fst x) (long_min b)); [discriminate|]. split; [|exact H2]. destruct (Qlt_le_dec (long_min b) (fst x)); [assumption|]. exfalso. apply n. apply Qle_antisym; assumption.
  - destruct (qeqb_spec (fst x) (long_min b)); [exfalso; lra|reflexivity].
Qed.
Lemma pick_in : forall (g : string -> res bool) l fs, pick g l = Ok fs -> forall f, In f fs -> In f l /\ g f = Ok true.
Proof.
  induction l as [|x l IH]; intros fs E f I; cbn in E; [injection E as <-; destruct I|].
  destruct (g x) as [v|] eqn:G; [|discriminate]. cbn [bind] in E. destruct (pick g l) as [r|] eqn:P; [|discriminate]. cbn [bind] in E. injection E as <-.
  destruct v; [destruct I as [<-|I]|]; [split; [left; reflexivity|exact G]|..]; destruct (IH r eq_refl f I) as [J K]; (split; [right; exact J|exact K]).
Qed.
Lemma ecmwf_in : forall t0 t1 files fs, ecmwf t0 t1 files = Ok fs -> fs <> [] /\ forall f, In f fs -> exists h, made_for f = Some h /\ (24 * t0 <= h <= 24 * t1)%Z.
Proof.
  intros t0 t1 files fs E. unfold ecmwf, ecmwf_files in E. set (a := (24 * t0)%Z) in *. set (z := (24 * t1)%Z) in *. clearbody a z. destruct (first_before _ _ _) as [c|]; [|discriminate]. cbn [bind] in E.
  destruct (pick _ (sorted_desc files)) as [l|]; [|discriminate]. cbn [bind] in E. destruct (pick _ l) as [r|] eqn:P; [|discriminate]. cbn [bind] in E.
  destruct r as [|x r]; [discriminate|]. injection E as <-. split; [discriminate|]. intros f I. destruct (pick_in _ _ _ P f I) as [_ H].
  unfold reads in H. destruct (made_for f) as [h|]; [|discriminate]. cbn [bind] in H. injection H as H. apply andb_true_iff in H as [H1 H2]. exists h. apply Z.leb_le in H1, H2. split; [reflexivity|lia].
Qed.
Lemma combine_seq : forall {A} (l : list A) k0 x k, In (x, k) (combine l (seq k0 (List.length l))) <-> (k0 <= k)%nat /\ nth_error l (k - k0) = Some x.
Proof.
  induction l as [|a l IH]; intros k0 x k; cbn [combine seq List.length].
  - split; [intros []|]. intros [_ H]. destruct (k - k0)%nat; discriminate.
  - split.
    + intros [E|I]; [injection E as -> ->; split; [lia|]; rewrite Nat.sub_diag; reflexivity|]. apply IH in I as [L E]. split; [lia|].
      replace (k - k0)%nat with (S (k - S k0)) by lia. exact E.
    + intros [L E]. destruct (Nat.eq_dec k k0) as [->|N]; [rewrite Nat.sub_diag in E; injection E as ->; left; reflexivity|]. right. apply IH. split; [lia|].
      replace (k - k0)%nat with (S (k - S k0)) in E by lia. exact E.
Qed.
Lemma points_in : forall ds ts p, x_time ds = Some ts -> (In p (xr_points ds) <->
  exists la i lo j h k, In (la, i) (x_lat ds) /\ In (lo, j) (x_long ds) /\ In (h, k) ts /\ p = mkP la lo (Some h) (x_val ds i j k)).
Proof.
  intros ds ts p T. unfold xr_points. rewrite T, in_flat_map. split.
  - intros ([la i] & Ia & I). apply in_flat_map in I as ([lo j] & Io & I). apply in_map_iff in I as ([h k] & <- & It). exists la, i, lo, j, h, k. repeat split; assumption.
  - intros (la & i & lo & j & h & k & Ia & Io & It & ->). exists (la, i). split; [exact Ia|]. apply in_flat_map. exists (lo, j). split; [exact Io|]. apply in_map_iff. exists (h, k). split; [reflexivity|exact It].
Qed.
Lemma stack_times : forall open fs h k, (forall f, In f fs -> exists h, made_for f = Some h) ->
  (exists ts, x_time (stack open fs) = Some ts /\ (In (h, k) ts <-> exists f, nth_error fs k = Some f /\ made_for f = Some h)).
Proof.
  intros open fs h k H. eexists. split; [reflexivity|].
  set (g := fun f => match made_for f with Some h => h | None => 0%Z end).
  replace (List.length fs) with (List.length (map g fs)) by apply map_length. rewrite combine_seq, Nat.sub_0_r. split.
  - intros [_ E]. destruct (nth_error fs k) as [f|] eqn:F; [|apply nth_error_None in F; assert (nth_error (map g fs) k = None) as X by (apply nth_error_None; rewrite map_length; exact F); congruence].
    rewrite (map_nth_error g k fs F) in E. injection E as <-. exists f. split; [reflexivity|]. destruct (H f (nth_error_In _ _ F)) as (h' & E). unfold g. rewrite E. reflexivity.
  - intros (f & F & E). split; [lia|]. rewrite (map_nth_error g k fs F). unfold g. rewrite E. reflexivity.
Qed.
Section Ecmwf.
  Variables (open : string -> xrds) (fs : list string) (lats longs : list (Q * nat)) (t0 t1 : Z).
  Hypothesis N : fs <> [].
  Hypothesis V : forall f, In f fs -> exists h, made_for f = Some h /\ (24 * t0 <= h <= 24 * t1)%Z.
  Hypothesis G : forall f, In f fs -> x_lat (open f) = lats /\ x_long (open f) = longs.
  Definition stacked (p : point) : Prop := exists f h, In f fs /\ made_for f = Some h /\ grid_point (fun i j => x_val (open f) i j 0%nat) lats longs h p.
  Lemma stack_axes : x_lat (stack open fs) = lats /\ x_long (stack open fs) = longs.
  Proof. destruct fs as [|f l]; [contradiction|]. cbn. apply G. left. reflexivity. Qed.
  Lemma stack_points : forall lats' longs', (forall x, In x lats' -> In x lats) -> (forall x, In x longs' -> In x longs) ->
    forall p, In p (xr_points (mkXr lats' longs' (x_time (stack open fs)) (x_val (stack open fs)))) <->
      exists f h, In f fs /\ made_for f = Some h /\ grid_point (fun i j => x_val (open f) i j 0%nat) lats' longs' h p.
  Proof.
    intros lats' longs' _ _ p. assert (V' : forall f, In f fs -> exists h, made_for f = Some h) by (intros f I; destruct (V f I) as (h & E & _); exists h; exact E).
    destruct (stack_times open fs 0 0 V') as (ts & T & _).
    rewrite (points_in (mkXr lats' longs' (x_time (stack open fs)) (x_val (stack open fs))) ts p T). cbn [x_lat x_long x_val]. split.
    - intros (la & i & lo & j & h & k & Ia & Io & It & ->). destruct (stack_times open fs h k V') as (ts' & T' & X). rewrite T in T'. injection T' as <-.
      apply X in It as (f & F & E). exists f, h. split; [exact (nth_error_In _ _ F)|]. split; [exact E|]. exists la, i, lo, j. split; [exact Ia|]. split; [exact Io|].
      cbn [stack x_val]. rewrite (nth_error_nth fs k ""%string F). reflexivity.
    - intros (f & h & I & E & la & i & lo & j & Ia & Io & ->). apply In_nth_error in I as (k & F). exists la, i, lo, j, h, k. split; [exact Ia|]. split; [exact Io|]. split.
      + destruct (stack_times open fs h k V') as (ts' & T' & X). rewrite T in T'. injection T' as <-. apply X. exists f. split; assumption.
      + cbn [stack x_val]. rewrite (nth_error_nth fs k ""%string F). reflexivity.
  Qed.
  Lemma stack_keep : forall ts, x_time (stack open fs) = Some ts -> forall x, In x ts -> ((24 * t0 <=? fst x) && (fst x <? 24 * (t1 + 1)))%Z = true.
  Proof.
    intros ts T [h k] I. assert (V' : forall f, In f fs -> exists h, made_for f = Some h) by (intros f J; destruct (V f J) as (h' & E & _); exists h'; exact E).
    destruct (stack_times open fs h k V') as (ts' & T' & X). rewrite T in T'. injection T' as <-. apply X in I as (f & F & E).
    destruct (V f (nth_error_In _ _ F)) as (h' & E' & L). rewrite E in E'. injection E' as <-. cbn [fst]. apply andb_true_iff. split; [apply Z.leb_le; lia|apply Z.ltb_lt; lia].
  Qed.
  Lemma sel_all : forall strict ts, x_time (stack open fs) = Some ts -> strict = false \/ monotone Z.leb (map fst ts) = true ->
    sel_hours strict t0 t1 ts = Ok ts.
  Proof.
    intros strict ts T H. pose proof (stack_keep ts T) as K. unfold sel_hours. destruct (monotone Z.leb (map fst ts)).
    - f_equal. clear - K. induction ts as [|x ts IH]; [reflexivity|]. cbn [filter]. rewrite (K x (or_introl eq_refl)). f_equal. apply IH. intros y I. apply K. right. exact I.
    - destruct H as [->|H]; [|discriminate]. assert (F : forallb (fun x => (24 * t0 <=? fst x) && (fst x <? 24 * (t1 + 1)))%Z ts = true) by (apply forallb_forall; exact K).
      rewrite F. reflexivity.
  Qed.
  Lemma ecmwf_loads : forall strict b files, plain_region b -> time_range b = [t0; t1] -> ecmwf t0 t1 files = Ok fs -> decreasing lats -> increasing longs ->
    (forall d, (forall p, In p d <-> stacked p) -> longs_in_range some_known d /\ reaches some_known b d) ->
    (strict = false \/ forall ts, x_time (stack open fs) = Some ts -> monotone Z.leb (map fst ts) = true) ->
    exists ds, load_ecmwf strict open b t0 t1 files = Ok ds /\ forall p, In p (xr_points ds) <-> stacked p /\ mem (region b) (p_long p) (p_lat p).
  Proof.
    intros strict b files R T E D I Re H. destruct stack_axes as [Ax Ao]. unfold load_ecmwf, import_ecmwf. rewrite E. cbn [bind]. unfold reverse_lat.
    rewrite Ax, Ao, (decreasing_dup _ D). cbn [bind]. set (ds := mkXr _ _ _ _).
    assert (P : forall p, In p (xr_points ds) <-> stacked p).
    { intros p. unfold ds. rewrite stack_points; [|intros x J; apply in_rev; exact J|intros x J; exact J]. unfold stacked, grid_point. split.
      - intros (f & h & If & Eh & la & i & lo & j & Ia & Io & ->). exists f, h. split; [exact If|]. split; [exact Eh|]. exists la, i, lo, j. split; [apply in_rev; exact Ia|]. split; [exact Io|reflexivity].
      - intros (f & h & If & Eh & la & i & lo & j & Ia & Io & ->). exists f, h. split; [exact If|]. split; [exact Eh|]. exists la, i, lo, j. split; [apply in_rev; rewrite rev_involutive; exact Ia|]. split; [exact Io|reflexivity]. }
    destruct (Re _ P) as [Lr Rr]. destruct (coverage_xr_ok b ds R Lr) as (c & Ec & C). rewrite Ec. cbn [bind]. apply C in Rr. rewrite Rr.
    assert (exists ts, x_time (stack open fs) = Some ts) as (ts & Ets) by (eexists; reflexivity).
    unfold trim_hours. cbn [ds x_time x_lat x_long x_val]. rewrite Ets.
    destruct R as (R1 & R2 & R3 & R4 & R5). destruct (trim_axes b (mkXr (rev lats) longs None (x_val (stack open fs))) R2 (decreasing_rev _ D) I eq_refl) as (tr & Et & X1 & X2).
    rewrite Et. cbn [bind]. rewrite T. rewrite (sel_all strict ts Ets) by (destruct H as [H|H]; [left; exact H|right; apply H; exact Ets]). cbn [bind].
    eexists. split; [reflexivity|]. intros p. rewrite <- Ets. rewrite stack_points.
    - unfold stacked, grid_point. split.
      + intros (f & h & If & Eh & la & i & lo & j & Ia & Io & ->). apply X1 in Ia as [Ia La]. apply X2 in Io as [Io Lo]. cbn [x_lat x_long fst] in *. split.
        * exists f, h. split; [exact If|]. split; [exact Eh|]. exists la, i, lo, j. split; [apply in_rev; exact Ia|]. split; [exact Io|reflexivity].
        * cbn [p_long p_lat]. unfold mem, region. cbn [x0 x1 y0 y1]. destruct (qltb_spec (long_min b) (long_max b)); split; lra.
      + intros [(f & h & If & Eh & la & i & lo & j & Ia & Io & ->) M]. cbn [p_long p_lat] in M. unfold mem, region in M. cbn [x0 x1 y0 y1] in M. destruct (qltb_spec (long_min b) (long_max b)); [|exfalso; lra].
        exists f, h. split; [exact If|]. split; [exact Eh|]. exists la, i, lo, j. split; [apply X1; cbn [x_lat fst]; split; [apply in_rev; rewrite rev_involutive; exact Ia|apply M]|].
        split; [apply X2; cbn [x_long fst]; split; [exact Io|apply M]|reflexivity].
    - intros x J. apply X1 in J as [J _]. apply in_rev. exact J.
    - intros x J. apply X2 in J as [J _]. exact J.
  Qed.
  Lemma ecmwf_fails : forall b files, plain_region b -> time_range b = [t0; t1] -> ecmwf t0 t1 files = Ok fs -> decreasing lats -> increasing longs ->
    (forall d, (forall p, In p d <-> stacked p) -> longs_in_range some_known d /\ reaches some_known b d) ->
    (forall ts, x_time (stack open fs) = Some ts -> monotone Z.leb (map fst ts) = false) ->
    load_ecmwf true open b t0 t1 files = Err KeyError.
  Proof.
    intros b files R T E D I Re H. destruct stack_axes as [Ax Ao]. unfold load_ecmwf, import_ecmwf. rewrite E. cbn [bind]. unfold reverse_lat.
    rewrite Ax, Ao, (decreasing_dup _ D). cbn [bind]. set (ds := mkXr _ _ _ _).
    assert (P : forall p, In p (xr_points ds) <-> stacked p).
    { intros p. unfold ds. rewrite stack_points; [|intros x J; apply in_rev; exact J|intros x J; exact J]. unfold stacked, grid_point. split.
      - intros (f & h & If & Eh & la & i & lo & j & Ia & Io & ->). exists f, h. split; [exact If|]. split; [exact Eh|]. exists la, i, lo, j. split; [apply in_rev; exact Ia|]. split; [exact Io|reflexivity].
      - intros (f & h & If & Eh & la & i & lo & j & Ia & Io & ->). exists f, h. split; [exact If|]. split; [exact Eh|]. exists la, i, lo, j. split; [apply in_rev; rewrite rev_involutive; exact Ia|]. split; [exact Io|reflexivity]. }
    destruct (Re _ P) as [Lr Rr]. destruct (coverage_xr_ok b ds R Lr) as (c & Ec & C). rewrite Ec. cbn [bind]. apply C in Rr. rewrite Rr.
    assert (exists ts, x_time (stack open fs) = Some ts) as (ts & Ets) by (eexists; reflexivity).
    unfold trim_hours. cbn [ds x_time x_lat x_long x_val]. rewrite Ets.
    destruct R as (R1 & R2 & R3 & R4 & R5). destruct (trim_axes b (mkXr (rev lats) longs None (x_val (stack open fs))) R2 (decreasing_rev _ D) I eq_refl) as (tr & Et & X1 & X2).
    rewrite Et. cbn [bind]. rewrite T. unfold sel_hours. rewrite (H ts Ets). reflexivity.
  Qed.
End Ecmwf.
