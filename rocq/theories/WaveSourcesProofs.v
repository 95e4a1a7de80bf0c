(** Proofs for C99. *)
From Coq Require Import Permutation Sorted.
From Verif Require TrimProofs.
From Verif Require Import Shapes ShapeProofs Base Geo Graph Cell Loaders AddLoader VecLoader Builder Env Spec MeshSpec EnvSpec DataSpec QLib Construct ConstructSpec ConstructProofs Names PyStr Dates DateSpec Config ConfigSpec Params ParamSpec ParamProofs
  Files FilesSpec FilesProofs PropsFiles Import ImportSpec ImportProofs PropsImport Downsample Forecast ForecastSpec ForecastProofs PropsForecast RebuildProofs
  Reproject ReprojectSpec Pipeline PipeSpec ConfigProofs PipeProofs Sources SourcesSpec SourcesProofs PropsSources MixSpec MixProofs PropsMix VecSources VecSourcesSpec VecSourcesProofs PropsVecSources
  Lut LutSpec LutFiles LutFilesSpec LutFilesProofs LutSources TableSpec TableProofs TableFiles PropsLut PropsLutFiles PropsTable ShapeSources ShapeSourcesSpec ShapeSourcesProofs AllSources WholeSpec WholeProofs
  Grf GrfSpec GrfProofs PropsGrf GrfSources GrfSourcesSpec GrfSourcesProofs PropsGrfSources IceSources IceSourcesSpec IceSourcesProofs WindSources WindSourcesSpec WindSourcesProofs WaveSources WaveSourcesSpec.
Open Scope string_scope.
Open Scope Z_scope.

(** ** Rows in another order *)
Lemma flat_map_plus {A B} (f g : A -> list B) l : Permutation (flat_map (fun x => f x ++ g x)%list l) (flat_map f l ++ flat_map g l)%list.
Proof.
  induction l as [|x l IH]; [constructor|]. cbn [flat_map]. rewrite IH, <- !app_assoc. apply Permutation_app_head. rewrite !app_assoc. apply Permutation_app_tail. apply Permutation_app_comm.
Qed.
Lemma flat_map_swap {A B C} (f : A -> B -> list C) l m : Permutation (flat_map (fun x => flat_map (f x) m) l) (flat_map (fun y => flat_map (fun x => f x y) l) m).
Proof.
  induction l as [|x l IH]; cbn [flat_map].
  - replace (flat_map (fun _ : B => @nil C) m) with (@nil C); [constructor|]. induction m; [reflexivity|assumption].
  - rewrite IH. symmetry. apply flat_map_plus.
Qed.
Lemma flat_map_one {A B} (f : A -> B) l : flat_map (fun x => [f x]) l = map f l.
Proof. induction l as [|x l IH]; [reflexivity|]. cbn. rewrite IH. reflexivity. Qed.
(** The rows of a Dataset, time by time. *)
Lemma by_times lats longs ts val : Permutation (xr_points (mkXr lats longs (Some ts) val))
  (flat_map (fun t => flat_map (fun la => map (fun lo => mkP (fst la) (fst lo) (Some (fst t)) (val (snd la) (snd lo) (snd t))) longs) lats) ts).
Proof.
  unfold xr_points. cbn [x_lat x_long x_time x_val].
  eapply perm_trans; [|apply (flat_map_swap (fun la t => map (fun lo => mkP (fst la) (fst lo) (Some (fst t)) (val (snd la) (snd lo) (snd t))) longs) lats ts)].
  apply flat_map_perm. intros la.
  eapply perm_trans; [|eapply perm_trans; [apply (flat_map_swap (fun lo t => [mkP (fst la) (fst lo) (Some (fst t)) (val (snd la) (snd lo) (snd t))]) longs ts)|]].
  - apply Permutation_refl'. apply flat_map_ext. intros lo. symmetry. apply flat_map_one.
  - apply Permutation_refl'. apply flat_map_ext. intros t. apply flat_map_one.
Qed.
Lemma numbered {A} (g : A -> Z) (z : A) l pre : map (fun t => (fst t, nth (snd t) (pre ++ l)%list z)) (combine (map g l) (seq (List.length pre) (List.length l))) = map (fun f => (g f, f)) l.
Proof.
  revert pre. induction l as [|x l IH]; intros pre; [reflexivity|]. cbn [map List.length seq combine fst snd]. f_equal.
  - f_equal. rewrite app_nth2, Nat.sub_diag by lia. reflexivity.
  - specialize (IH (pre ++ [x])%list). rewrite app_length in IH. cbn [List.length] in IH. rewrite Nat.add_1_r in IH. rewrite <- app_assoc in IH. exact IH.
Qed.
Lemma perm_each {A B} (f g : A -> list B) l : (forall x, In x l -> Permutation (f x) (g x)) -> Permutation (flat_map f l) (flat_map g l).
Proof. induction l as [|x l IH]; intros H; [constructor|]. cbn [flat_map]. apply Permutation_app; [apply H; left; reflexivity|apply IH; intros y I; apply H; right; exact I]. Qed.
Definition valid_hour (f : string) : Z := match made_for f with Some h => h | None => 0 end.
Lemma stacked_rows open fs lats longs : (forall f, In f fs -> x_lat (open f) = lats /\ x_long (open f) = longs /\ x_time (open f) = None) ->
  Permutation (map by_day (xr_points (mkXr (rev lats) longs (x_time (stack open fs)) (x_val (stack open fs))))) (flat_map (fun f => for_day (valid_hour f / 24) (open f)) fs).
Proof.
  intros H. cbn [stack x_time x_val]. change (map _ fs) with (map valid_hour fs). set (ts := combine _ _).
  eapply perm_trans; [apply Permutation_map, by_times|]. rewrite map_flat_map.
  pose proof (numbered valid_hour ""%string fs []) as N. cbn [List.length app] in N. fold ts in N.
  set (F := fun (hf : Z * string) => map by_day (flat_map (fun la : Q * nat => map (fun lo : Q * nat => mkP (fst la) (fst lo) (Some (fst hf)) (x_val (open (snd hf)) (snd la) (snd lo) 0%nat)) longs) (rev lats))).
  change (Permutation (flat_map (fun t => F (fst t, nth (snd t) fs ""%string)) ts) (flat_map (fun f => for_day (valid_hour f / 24) (open f)) fs)).
  rewrite <- (flat_map_map (fun t : Z * nat => (fst t, nth (snd t) fs ""%string)) F ts), N, flat_map_map. unfold F. clear F N ts.
  apply perm_each. intros f I. destruct (H f I) as (Ea & Eo & Et). unfold for_day, xr_points. rewrite Ea, Eo, Et. cbn [fst snd].
  eapply perm_trans; [eapply (Permutation_map by_day), Permutation_flat_map, Permutation_sym, Permutation_rev|].
  match goal with |- Permutation ?l ?m => replace m with l; [apply Permutation_refl|] end. rewrite !map_flat_map. apply flat_map_ext. intros la. rewrite !map_flat_map. cbn [map]. rewrite flat_map_one, map_map. reflexivity.
Qed.

(** ** Trimming *)
Lemma filtered_points (P Q : Q * nat -> bool) (q : point -> bool) lats longs T val :
  (forall la lo t v, q (mkP (fst la) (fst lo) t v) = P la && Q lo) ->
  xr_points (mkXr (filter P lats) (filter Q longs) T val) = filter q (xr_points (mkXr lats longs T val)).
Proof.
  intros H. unfold xr_points. cbn [x_lat x_long x_time x_val]. induction lats as [|la lats IH]; [reflexivity|]. cbn [flat_map filter]. rewrite filter_app, <- IH. clear IH.
  assert (X : filter q (flat_map (fun lo => match T with Some ts => map (fun t => mkP (fst la) (fst lo) (Some (fst t)) (val (snd la) (snd lo) (snd t))) ts
      | None => [mkP (fst la) (fst lo) None (val (snd la) (snd lo) 0%nat)] end) longs) =
    if P la then flat_map (fun lo => match T with Some ts => map (fun t => mkP (fst la) (fst lo) (Some (fst t)) (val (snd la) (snd lo) (snd t))) ts
      | None => [mkP (fst la) (fst lo) None (val (snd la) (snd lo) 0%nat)] end) (filter Q longs) else []).
  { induction longs as [|lo longs IH]; [destruct (P la); reflexivity|]. cbn [flat_map filter]. rewrite filter_app, IH. clear IH.
    assert (Y : filter q (match T with Some ts => map (fun t => mkP (fst la) (fst lo) (Some (fst t)) (val (snd la) (snd lo) (snd t))) ts
      | None => [mkP (fst la) (fst lo) None (val (snd la) (snd lo) 0%nat)] end) =
      if P la && Q lo then match T with Some ts => map (fun t => mkP (fst la) (fst lo) (Some (fst t)) (val (snd la) (snd lo) (snd t))) ts
      | None => [mkP (fst la) (fst lo) None (val (snd la) (snd lo) 0%nat)] end else []).
    { destruct T as [ts|]; [|cbn [filter]; rewrite H; destruct (P la && Q lo); reflexivity].
      induction ts as [|t ts IH]; [destruct (P la && Q lo); reflexivity|]. cbn [map filter]. rewrite H, IH. destruct (P la && Q lo); reflexivity. }
    rewrite Y. destruct (P la), (Q lo); reflexivity. }
  rewrite X. destruct (P la); reflexivity.
Qed.
Lemma filter_selects {A} (P : A -> Prop) (q : A -> bool) l : (forall x, In x l -> (q x = true <-> P x)) -> selected P l (filter q l).
Proof.
  induction l as [|x l IH]; intros H; [constructor|]. cbn [filter]. specialize (IH (fun y I => H y (or_intror I))). destruct (q x) eqn:E.
  - constructor; [apply H; [left; reflexivity|exact E]|exact IH].
  - constructor; [|exact IH]. intros X. apply H in X; [congruence|left; reflexivity].
Qed.
Lemma selected_mapped {A} (P : A -> Prop) (f : A -> A) l m : (forall x, P (f x) <-> P x) -> selected P l m -> selected P (map f l) (map f m).
Proof. intros H S. induction S as [|x l m Px S IH|x l m Px S IH]; cbn [map]; constructor; auto; [apply H; exact Px|intros X; apply Px, H, X]. Qed.
Lemma hours_trimmed strict b lats longs ts val t0 t1 : plain_region b -> time_range b = [t0; t1] -> increasing lats -> increasing longs ->
  (forall x, In x ts -> 24 * t0 <= fst x <= 24 * t1) -> (strict = false \/ monotone Z.leb (map fst ts) = true) ->
  let ds := mkXr lats longs (Some ts) val in
  exists ds', trim_hours strict b ds = Ok ds' /\ selected (belongs b) (map by_day (xr_points ds)) (map by_day (xr_points ds')).
Proof.
  intros (R1 & R2 & R3 & R4 & R5) T Ia Io Hr Hm ds. unfold trim_hours, ds. cbn [x_time x_lat x_long x_val]. unfold xr_trim. cbn [x_time x_lat x_long x_val].
  assert (E : qltb (long_min b) (long_max b) = true) by (apply qltb_true; exact R2). rewrite E, (sel_increasing _ _ _ Ia), (sel_increasing _ _ _ Io). cbn [bind x_lat x_long]. rewrite T.
  assert (S : sel_hours strict t0 t1 ts = Ok ts).
  { assert (K : forall x, In x ts -> ((24 * t0 <=? fst x) && (fst x <? 24 * (t1 + 1))) = true) by (intros x I; specialize (Hr x I); apply andb_true_iff; split; [apply Z.leb_le|apply Z.ltb_lt]; lia).
    unfold sel_hours. destruct (monotone Z.leb (map fst ts)).
    - f_equal. clear - K. induction ts as [|x ts IH]; [reflexivity|]. cbn [filter]. rewrite (K x (or_introl eq_refl)). f_equal. apply IH. intros y I. apply K. right. exact I.
    - destruct Hm as [->|H]; [|discriminate]. apply forallb_forall in K. rewrite K. reflexivity. }
  rewrite S. cbn [bind]. eexists. split; [reflexivity|]. rewrite !FilesProofs.filter_filter.
  set (q := fun p => ((qleb (lat_min b) (p_lat p) && qleb (p_lat p) (lat_max b)) && negb (qeqb (p_lat p) (lat_min b))) && ((qleb (long_min b) (p_long p) && qleb (p_long p) (long_max b)) && negb (qeqb (p_long p) (long_min b)))).
  rewrite (filtered_points _ _ q lats longs (Some ts) val) by (intros; reflexivity).
  assert (M : forall l, map by_day (filter q l) = filter q (map by_day l)).
  { induction l as [|p l IH]; [reflexivity|]. cbn [map filter]. change (q (by_day p)) with (q p). rewrite <- IH. destruct (q p); reflexivity. }
  rewrite M. apply filter_selects. intros p I. apply in_map_iff in I as (p0 & <- & I). change (q (by_day p0)) with (q p0).
  assert (D : exists h, p_time p0 = Some h /\ 24 * t0 <= h <= 24 * t1).
  { apply (ForecastProofs.points_in (mkXr lats longs (Some ts) val) ts p0 eq_refl) in I as (la & i & lo & j & h & kk & _ & _ & It & ->). exists h. split; [reflexivity|]. apply (Hr (h, kk) It). }
  destruct D as (h & Eh & Lh). unfold belongs, on_date, by_day. cbn [p_time p_long p_lat]. rewrite Eh, T. cbn [option_map].
  assert (Day : t0 <= h / 24 <= t1) by (split; [apply Z.div_le_lower_bound; lia|apply Z.div_le_upper_bound; lia]).
  unfold q, mem, region. cbn [x0 x1 y0 y1]. rewrite E, !andb_true_iff, !negb_true_iff, !qleb_true.
  destruct (qeqb_spec (p_lat p0) (lat_min b)) as [A|A], (qeqb_spec (p_long p0) (long_min b)) as [B|B]; split; try (intros H; decompose [and] H; discriminate); try (intros [H _]; exfalso; lra).
  - intros H. decompose [and] H. split; [|exists t0, t1; auto].
    assert (~ (p_lat p0 <= lat_min b)%Q) by (intros X; apply A, Qle_antisym; assumption). assert (~ (p_long p0 <= long_min b)%Q) by (intros X; apply B, Qle_antisym; assumption). split; split; lra.
  - intros [H _]. repeat split; try reflexivity; lra.
Qed.

(** ** The files *)
Lemma picked_unique {A} (P : A -> Prop) l m m' : picked P l m -> picked P l m' -> m = m'.
Proof.
  intros K. revert m'. induction K as [|x l m Px K IH|x l m Px K IH]; intros m' K'; inversion K'; subst; try reflexivity; try contradiction; try (f_equal; apply IH; assumption); apply IH; assumption.
Qed.
Lemma picked_ext {A} (P Q : A -> Prop) l m : (forall x, P x <-> Q x) -> picked P l m -> picked Q l m.
Proof. intros H K. induction K as [|x l m Px K IH|x l m Px K IH]; constructor; auto; [apply H; exact Px|intros X; apply Px, H, X]. Qed.
Lemma str_leb_compare a b : str_leb a b = true -> a = b \/ String.compare b a = Gt.
Proof.
  revert b. induction a as [|c a IH]; intros [|d b] H; cbn [str_leb String.compare] in *; [left; reflexivity|right; reflexivity|discriminate|].
  unfold Ascii.compare. destruct (Nat.ltb_spec (nat_of_ascii c) (nat_of_ascii d)) as [L|L].
  - right. replace (N.compare (N_of_ascii d) (N_of_ascii c)) with Gt; [reflexivity|]. symmetry. apply N.compare_gt_iff. unfold nat_of_ascii in L. lia.
  - destruct (Nat.eqb_spec (nat_of_ascii c) (nat_of_ascii d)) as [E|E]; [|discriminate]. unfold nat_of_ascii in E. assert (E0 : N_of_ascii c = N_of_ascii d) by lia. clear E. rename E0 into E.
    assert (c = d) as -> by (rewrite <- (ascii_N_embedding c), <- (ascii_N_embedding d), E; reflexivity). rewrite N.compare_refl. destruct (IH b H) as [->|G]; [left; reflexivity|right; exact G].
Qed.
Lemma chosen b dir files kept : forecasts b dir files kept -> exists fs t0 t1, time_range b = [t0; t1] /\ ecmwf t0 t1 files = Ok fs /\ Permutation fs kept /\ StronglySorted FilesProofs.desc fs /\ (forall f v, In f kept -> (made_for f = Some v <-> valid_at dir f v)) /\ (forall f, In f kept -> exists v, made_for f = Some v /\ 24 * t0 <= v <= 24 * t1).
Proof.
  intros (first & last & c & Dir & Nm & T & LR & Ne & Pk).
  assert (V : forall f v, In f files -> (made_for f = Some v <-> valid_at dir f v)).
  { intros f v J. split.
    - intros X. destruct (Nm f J) as (date & h & n & N & A). exists date, h, n. split; [exact N|]. split; [exact A|]. rewrite (proj2 (made_ok dir f date h n Dir N A)) in X. injection X as <-. reflexivity.
    - intros (date & h & n & N & A & ->). apply (made_ok dir f date h n Dir N A). }
  assert (One : forall c', last_run dir files (hours first 0) c' -> c' = c).
  { intros c' ((g & Ig & Mg) & Lg & Hg). destruct LR as ((g0 & Ig0 & Mg0) & Lg0 & Hg0). pose proof (Hg g0 c Ig0 Mg0 Lg0). pose proof (Hg0 g c' Ig Mg Lg). lia. }
  pose proof (C67_ecmwf dir first last files Dir Nm) as C. cbv zeta in C. destruct (ecmwf (ord first) (ord last) files) as [fs|e] eqn:E.
  - destruct C as (_ & c' & l' & LR' & Pm & Pk'). rewrite (One c' LR') in Pk'. rewrite (picked_unique _ _ _ _ Pk' Pk) in Pm.
    exists fs, (ord first), (ord last). split; [exact T|]. split; [exact E|]. split; [exact Pm|]. split; [|split].
    + unfold ecmwf, ecmwf_files in E. destruct (first_before _ _ _); [|discriminate]. cbn [bind] in E.
      destruct (pick _ (sorted_desc files)) as [l|] eqn:P1; [|discriminate]. cbn [bind] in E. destruct (pick _ l) as [r|] eqn:P2; [|discriminate]. cbn [bind] in E.
      destruct r as [|x r]; [discriminate|]. injection E as <-. exact (pick_sorted _ _ _ (pick_sorted _ _ _ (sorted_desc_sorted files) P1) P2).
    + intros f v I. apply V. apply (picked_in _ _ _ Pk) in I. apply I.
    + intros f I. destruct (picked_in _ _ _ Pk f) as [K _]. destruct (K I) as (If & _ & v & Va & L). exists v. split; [apply V; assumption|]. unfold hours in L. lia.
  - exfalso. destruct kept as [|f kept]; [contradiction|]. destruct (picked_in _ _ _ Pk f) as [K _]. destruct (K (or_introl eq_refl)) as (If & Ma & v & Va & L). destruct C as (_ & [X|(c' & LR' & X)]).
    + specialize (X f c If Ma). destruct LR as (_ & Lt & _). lia.
    + rewrite (One c' LR') in X. exact (X f v If Ma Va L).
Qed.
Lemma same_axis_refl l : same_axis l l = true.
Proof.
  unfold same_axis. rewrite Nat.eqb_refl. cbn [andb]. apply forallb_forall. intros [x y] I. assert (x = y) as <- by (clear - I; induction l as [|a l IH]; cbn in I; [destruct I|destruct I as [E|I]; [congruence|auto]]).
  cbn [fst snd]. rewrite Nat.eqb_refl, andb_true_r. apply qeqb_true. reflexivity.
Qed.
Lemma concat_flat {A B} (f : A -> list B) l m : Forall2 (fun x d => d = f x) l m -> List.concat m = flat_map f l.
Proof. induction 1 as [|x d l m -> F IH]; [reflexivity|]. cbn. rewrite IH. reflexivity. Qed.
Lemma sorted_hours (g : string -> Z) l : StronglySorted FilesProofs.desc l -> (forall f h, In f l -> In h l -> String.compare f h = Gt -> g f <= g h) -> monotone Z.leb (map g l) = true.
Proof.
  induction 1 as [|x l S IH F]; intros H; [reflexivity|]. destruct l as [|y l]; [reflexivity|]. change (Z.leb (g x) (g y) && monotone Z.leb (map g (y :: l)) = true). apply andb_true_iff. split.
  - apply Z.leb_le. inversion F as [|? ? D _]; subst. unfold FilesProofs.desc in D. apply str_leb_compare in D as [->|D]; [lia|]. apply H; [left; reflexivity|right; left; reflexivity|exact D].
  - apply IH. intros f h If Ih. apply H; right; assumption.
Qed.
Lemma agree_selected b f f' d d' : selected (belongs b) d d' \/ d = d' ->
  f' = mkFeed (f_name f) (f_xr f) (f_agg f) (f_min f) (f_conds f) (f_fill f) d' -> agree b f' (mkFeed (f_name f) (f_xr f) (f_agg f) (f_min f) (f_conds f) (f_fill f) d).
Proof.
  intros H ->. repeat (split; [reflexivity|]). cbn [f_data]. intros a pts Ia. destruct H as [S| ->]; [|reflexivity]. apply (selected_within_iff b); assumption.
Qed.
Lemma wave_supplied glob sq strict open_wave construct b min_dp k src f : plain_region b ->
  (forall p, construct k "ECMWFSigWaveHeightDataLoader" p b = construct_ecmwf sq strict open_wave k p b) -> wave_feed glob strict open_wave b min_dp src f ->
  exists f' g, supplies glob construct sq b min_dp k src f' /\ agree b f' g /\ wave_feed glob strict open_wave b min_dp src g /\ f_name g = f_name f.
Proof.
  intros R Hc (dir & files & kept & lats & longs & rows & Sn & St & Lf & Fo & Or & Da & Io & Lr & Fr & Pm & X).
  destruct (made_ready glob src min_dp "ecmwf_sig_wave_height" "ECMWFSigWaveHeightDataLoader" files "swh" f Sn eq_refl) as (p' & (p1 & E1 & E2) & Rd); auto.
  { apply ParamProofs.sget_in. vm_compute. reflexivity. } { intros p. reflexivity. }
  destruct Rd as [Rf (o & Rn & Rn') Ra Ra' Rm (s & Ri & Ro) (x & y & Rx & Ry) Rfa Ru].
  destruct (chosen b dir files kept Fo) as (fs & t0 & t1 & T & Ee & Pf & Sf & Vf & Lv).
  assert (Ink : forall g, In g fs <-> In g kept) by (intros g; split; apply Permutation_in; [|symmetry]; exact Pf).
  assert (Nk : fs <> []) by (intros ->; apply Permutation_nil in Pf; destruct Fo as (? & ? & ? & ? & ? & ? & ? & Ne & _); contradiction).
  assert (Op : forall g, In g kept -> exists v ds, valid_at dir g v /\ open_wave g = Ok ds /\ x_lat ds = lats /\ x_long ds = longs /\ x_time ds = None).
  { intros g I. clear - Fr I. induction Fr as [|h d kept rows (v & ds & A1 & A2 & A3 & A4 & A5 & _) Fr IH]; [destruct I|]. destruct I as [<-|I]; [exists v, ds; auto|apply IH, I]. }
  set (open := opened_or_empty open_wave).
  assert (Ox : forall g, In g fs -> x_lat (open g) = lats /\ x_long (open g) = longs /\ x_time (open g) = None).
  { intros g I. apply Ink in I. destruct (Op g I) as (v & ds & _ & E & A1 & A2 & A3). unfold open, opened_or_empty. rewrite E. auto. }
  assert (Mp : mapM open_wave fs = Ok (map open fs)).
  { assert (G : forall l, (forall g, In g l -> In g kept) -> mapM open_wave l = Ok (map open l)).
    { induction l as [|g l IH]; intros H; [reflexivity|]. cbn [mapM map]. destruct (Op g (H g (or_introl eq_refl))) as (v & ds & _ & E & _). rewrite E. cbn [bind].
      rewrite IH by (intros h I; apply H; right; exact I). cbn [bind]. unfold open, opened_or_empty. rewrite E. reflexivity. }
    apply G. intros g I. apply Ink, I. }
  assert (Gr : forallb (same_axes (hd (opened_or_empty open_wave "") (map open fs))) (map open fs) = true).
  { apply forallb_forall. intros ds I. apply in_map_iff in I as (g & <- & I). destruct (Ox g I) as (A1 & A2 & _). destruct fs as [|h fs']; [contradiction|]. cbn [map hd]. destruct (Ox h (or_introl eq_refl)) as (B1 & B2 & _).
    unfold same_axes. rewrite A1, A2, B1, B2, !same_axis_refl. reflexivity. }
  assert (Hd : x_lat (stack open fs) = lats /\ x_long (stack open fs) = longs).
  { destruct fs as [|h fs']; [contradiction|]. cbn [stack hd x_lat x_long]. destruct (Ox h (or_introl eq_refl)) as (B1 & B2 & _). auto. }
  destruct Hd as [Hd1 Hd2].
  set (ds := mkXr (rev lats) longs (x_time (stack open fs)) (x_val (stack open fs))).
  assert (Im : import_ecmwf open t0 t1 files = Ok ds).
  { unfold import_ecmwf. rewrite Ee. cbn [bind]. unfold reverse_lat. rewrite Hd1, Hd2, (decreasing_dup _ Da). reflexivity. }
  assert (Val : forall g, In g fs -> exists v, made_for g = Some v /\ valid_hour g = v /\ valid_at dir g v /\ 24 * t0 <= v <= 24 * t1).
  { intros g I. apply Ink in I. destruct (Lv g I) as (v & E & L). exists v. split; [exact E|]. split; [unfold valid_hour; rewrite E; reflexivity|]. split; [apply (Vf g v I), E|exact L]. }
  set (ts := combine (map valid_hour fs) (seq 0 (List.length fs))). assert (Ets : x_time (stack open fs) = Some ts) by reflexivity.
  assert (Mts : map fst ts = map valid_hour fs).
  { unfold ts. clear. generalize 0%nat. induction fs as [|g fs IH]; intros n; [reflexivity|]. cbn [map List.length seq combine fst]. rewrite IH. reflexivity. }
  assert (Rows : Permutation (map by_day (xr_points ds)) (List.concat rows)).
  { unfold ds. rewrite (stacked_rows open fs lats longs Ox). eapply perm_trans; [apply Permutation_flat_map, Pf|]. rewrite (concat_flat (fun g => for_day (valid_hour g / 24) (open g)) kept rows); [reflexivity|].
    assert (Vk : forall g, In g kept -> forall v, valid_at dir g v -> valid_hour g = v) by (intros g I v A; apply (Vf g v I) in A; unfold valid_hour; rewrite A; reflexivity).
    clear - Fr Vk. induction Fr as [|g d kept rows (v & ds & A1 & A2 & _ & _ & _ & ->) Fr IH]; constructor; [|apply IH; intros h I; apply Vk; right; exact I].
    rewrite (Vk g (or_introl eq_refl) v A1). unfold open, opened_or_empty. rewrite A2. reflexivity. }
  assert (Lg : longs_in_range some_known (xr_points ds)).
  { intros p I _. unfold ds in I. rewrite Ets in I. apply (ForecastProofs.points_in (mkXr (rev lats) longs (Some ts) (x_val (stack open fs))) ts p eq_refl) in I as (la & i & lo & j & h & kk & _ & Il & _ & ->).
    cbn [p_long]. apply (Lr (lo, j) Il). }
  destruct (coverage_xr_ok b ds R Lg) as (cv & Ec & _).
  assert (Tr : exists ds', (if qeqb cv 0 then Ok ds else trim_hours strict b ds) = Ok ds' /\ (selected (belongs b) (map by_day (xr_points ds)) (map by_day (xr_points ds')) \/ map by_day (xr_points ds) = map by_day (xr_points ds'))).
  { destruct (qeqb cv 0); [exists ds; split; [reflexivity|right; reflexivity]|]. destruct (hours_trimmed strict b (rev lats) longs ts (x_val (stack open fs)) t0 t1 R T (decreasing_rev _ Da) Io) as (ds' & Et & Se).
    - intros t I. assert (In (fst t) (map fst ts)) as J by (apply in_map; exact I). rewrite Mts in J. apply in_map_iff in J as (g & <- & Ig). destruct (Val g Ig) as (v & _ & -> & _ & L). exact L.
    - destruct Or as [Or|Or]; [left; exact Or|right]. rewrite Mts. apply sorted_hours; [exact Sf|]. intros g h Ig Ih C. destruct (Val g Ig) as (v & _ & -> & Av & _), (Val h Ih) as (w & _ & -> & Aw & _).
      apply (Or g h v w); try assumption; apply Ink; assumption.
    - exists ds'. split; [exact Et|left; exact Se]. }
  destruct Tr as (ds' & Et & Se).
  exists (mkFeed (f_name f) (f_xr f) (f_agg f) (f_min f) (f_conds f) (f_fill f) (map by_day (xr_points ds'))), (mkFeed (f_name f) (f_xr f) (f_agg f) (f_min f) (f_conds f) (f_fill f) (map by_day (xr_points ds))).
  assert (Stt := St). destruct St. split; [|split; [|split; [|reflexivity]]].
  - split; [|split; [exact st_known|split; [exact st_min|split; [exact st_conds|exact st_fill]]]].
    exists "ECMWFSigWaveHeightDataLoader", p1, p'. split; [exact E1|]. split; [exact E2|]. split; [|split; [exact Ra'|cbn; intuition discriminate]].
    rewrite Hc. unfold construct_ecmwf, construct_hours. rewrite Rf. cbn [bind]. rewrite T, Ee. cbn [bind]. rewrite Mp. cbn [bind]. rewrite Gr. fold open. rewrite Im. cbn [bind].
    rewrite Rfa. cbn [bind]. rewrite Ra. cbn [bind]. rewrite Rm. cbn [bind].
    unfold downsample. cbn [fst snd Z.eqb Pos.eqb andb bind]. rewrite Ri. cbn [bind]. rewrite Ro. cbn [bind]. rewrite Rn. cbn [bind]. rewrite String.eqb_refl.
    rewrite (named_scalar o "swh" (f_name f) ds) by (try exact Rn'; cbn; intuition discriminate). cbn [bind]. rewrite Ec. cbn [bind]. rewrite Et. cbn [bind].
    unfold feed_loader. cbn [f_xr f_name f_agg f_min f_data]. rewrite X. reflexivity.
  - eapply agree_selected; [exact Se|reflexivity].
  - exists dir, files, kept, lats, longs, rows. split; [exact Sn|]. split; [constructor; assumption|]. repeat (split; [assumption|]). exact X.
Qed.

(** ** ORAS5 *)
Lemma oras5_supplied glob sq open_oras construct b min_dp k src v : plain_region b -> fit_names (v_names v) ->
  (forall p, construct k "ORAS5CurrentDataLoader" p b = construct_oras5 sq open_oras k p b) -> oras5_feed glob open_oras b min_dp src v ->
  exists v' w, provides glob construct sq b min_dp k src (Vector v') /\ vagree b v' w /\ oras5_feed glob open_oras b min_dp src w /\ v_names w = v_names v.
Proof.
  intros R Fn Hc (files & ds & Sn & St & Lf & Op & Da & Ia & Io & Two & Pm & X & Cn).
  destruct (vector_ready glob src min_dp "oras5_currents" "ORAS5CurrentDataLoader" files ["uC"; "vC"] v Sn eq_refl) as (p' & (p1 & E1 & E2) & Rd); auto.
  { apply ParamProofs.sget_in. vm_compute. reflexivity. } { intros p. reflexivity. }
  destruct (settled_cols _ _ _ _ St) as (Pc & Cc). pose proof (given_names _ _ _ _ St) as Gn. destruct (vs_two _ _ _ _ St) as (L1 & L2).
  destruct Rd as [Rf (o & Rn & Rn') Ra Ra' Rm (s & Ri & Ro) (x & y & Rx & Ry) Rfa Ru]. cbn [stand_in f_name f_agg f_min] in *.
  destruct (plain_got b ds R Ia Io Da) as (ds' & Ei & (Or & Pe & Be & d & Gd & Sd)).
  destruct (construct_xr_same b ds' R Or Pe Be) as (ds'' & Ec & Pp).
  exists (mkVFeed (v_names v) (v_xr v) (v_agg v) (v_min v) (v_conds v) (xr_points ds')), (mkVFeed (v_names v) (v_xr v) (v_agg v) (v_min v) (v_conds v) d).
  assert (Stt := St). destruct St. split; [|split; [|split; [|reflexivity]]].
  - cbn [provides v_names v_xr v_agg v_min v_conds v_data].
    split; [|split; [exact vs_known|split; [exact vs_min|split; [intros _; exact Cn|split; [|split; [exact vs_conds|exact vs_fill]]]]]].
    + exists "ORAS5CurrentDataLoader", p1, p'. split; [exact E1|]. split; [exact E2|]. split; [|split; [exact Ra'|cbn; intuition discriminate]].
      rewrite Hc. unfold construct_oras5, construct_vector_dataset. rewrite Rf. cbn [bind]. rewrite Op. cbn [bind import_oras5]. change (xr_trim b ds) with (import_plain b ds). rewrite Ei. cbn [bind snd fst]. rewrite Rfa. cbn [bind]. rewrite Ra. cbn [bind]. rewrite Rm. cbn [bind].
      unfold downsample. cbn [fst snd Z.eqb Pos.eqb andb bind]. rewrite Ri. cbn [bind]. rewrite Ro. cbn [bind]. rewrite Rn. cbn [bind]. rewrite String.eqb_refl.
      rewrite (named_grid o ["uC"; "vC"] v ds' Pc Cc L1 L2 Fn Gn Rn'). cbn [bind]. rewrite (names_two _ L2). cbn [bind]. rewrite Ec. cbn [bind]. rewrite Pp.
      unfold vfeed_loader. cbn [v_xr v_names v_agg]. rewrite X. reflexivity.
    + intros p I. rewrite L2. apply Two. apply (Permutation_in _ Gd). apply (TrimProofs.selected_In _ _ _ p Sd) in I. apply I.
  - unfold vagree. cbn [v_names v_xr v_agg v_min v_conds v_data]. repeat (split; [reflexivity|]). intros a pts I. apply (selected_within_iff b); assumption.
  - exists files, ds. split; [exact Sn|]. split; [constructor; assumption|]. repeat (split; [assumption|]). exact Cn.
Qed.

(** ** Everything else as before *)
Lemma offers_wave o edge sq cos sin noise proj strict open_wave open_oras bearing open_amsr open_icenet open_ice glob dsin dcos read_csv open_nc read_table read_shapes b min_dp k src s :
  offers o edge sq glob (construct_wind sq proj bearing open_nc open_amsr open_icenet open_ice cos sin noise o edge dsin dcos read_csv read_table read_shapes) b min_dp k src s ->
  offers o edge sq glob (construct_wave sq proj strict open_wave open_oras bearing open_nc open_amsr open_icenet open_ice cos sin noise o edge dsin dcos read_csv read_table read_shapes) b min_dp k src s.
Proof.
  assert (X : forall cls p r, construct_wind sq proj bearing open_nc open_amsr open_icenet open_ice cos sin noise o edge dsin dcos read_csv read_table read_shapes k cls p b = Ok r ->
    construct_wave sq proj strict open_wave open_oras bearing open_nc open_amsr open_icenet open_ice cos sin noise o edge dsin dcos read_csv read_table read_shapes k cls p b = Ok r).
  { intros cls p r E. unfold construct_wave. destruct (String.eqb_spec cls "ECMWFSigWaveHeightDataLoader") as [->|N1]; [|destruct (String.eqb_spec cls "ORAS5CurrentDataLoader") as [->|N2]; [|exact E]];
      exfalso; unfold construct_wind, construct_ice, construct_every, construct_all, construct_any, construct_source, construct_grid, import_grid in E; cbn [String.eqb Ascii.eqb Bool.eqb existsb vector_classes era5_waves table_classes orb] in E;
      (destruct (attr_files p); [|discriminate]); discriminate. }
  destruct s as [[f|v]|t]; cbn [offers provides]; intros ((cls & p & p' & S1 & S2 & S3 & S4) & R); (split; [|exact R]); exists cls, p, p'; (split; [exact S1|]); (split; [exact S2|]); (split; [apply X; exact S3|exact S4]).
Qed.

(** ** ORAS5 on its own grid *)
Lemma oras5_never glob n p min_dp cls p1 p' sq open_oras k b : (forall files, exists e, open_oras files = Ok OnGrid \/ open_oras files = Err e) ->
  same_name n "oras5_currents" -> get_dataloader glob n p min_dp = Ok (cls, p1) -> add_default_params cls p1 = Ok p' ->
  cls = "ORAS5CurrentDataLoader" /\ forall r, construct_oras5 sq open_oras k p' b <> Ok r.
Proof.
  intros Og Sn E A. split.
  - unfold get_dataloader in E. rewrite (lower_same_name _ _ Sn) in E. cbv zeta in E. destruct (translate_file_input glob p); [|discriminate]. cbn [bind] in E.
    change (sget requirements (lower "oras5_currents")) with (Some ("ORAS5CurrentDataLoader", ["files"])) in E. cbv iota beta in E. destruct (forallb _ _); [|discriminate]. injection E as <- _. reflexivity.
  - intros r. unfold construct_oras5. destruct (attr_files p') as [files|]; [|discriminate]. cbn [bind]. destruct (Og files) as (e & [-> | ->]); discriminate.
Qed.
Lemma source_fails files pad now glob ft construct fuel cfg name :
  (forall n p min_dp cls p1 p' k b r, same_name n name -> get_dataloader glob n p min_dp = Ok (cls, p1) -> add_default_params cls p1 = Ok p' -> construct k cls p' b <> Ok r) ->
  asks_for cfg name -> forall em, generate files pad now glob ft construct fuel cfg <> Ok em.
Proof.
  intros Hc (sources & src & n & p & Hd & Is & Hl & Sn & Hp & _) em E.
  unfold generate in E. destruct (mesh_builder_init files pad now glob ft construct cfg) as [[[b m] depth]|] eqn:M; [|discriminate]. clear E.
  unfold mesh_builder_init in M. destruct (validate_mesh_config files cfg); [|discriminate]. cbn [bind] in M. destruct (from_json pad now cfg) as [b0|]; [|discriminate]. cbn [bind] in M.
  do 4 (match type of M with bind ?x _ = _ => destruct x; [|discriminate] end; cbn [bind] in M).
  match type of M with bind ?x _ = _ => destruct x as [z|]; [|discriminate] end; cbn [bind] in M.
  unfold initialize_meta_data in M. rewrite Hd in M. cbn [as_arr bind] in M.
  destruct (mapM (fun kj => source_metadata glob ft construct b0 z (fst kj) (snd kj)) (combine (seq 0 (List.length sources)) sources)) as [ms|] eqn:Mm; [|discriminate].
  destruct (In_nth_error _ _ Is) as (i & Hi).
  assert (I : In (i, src) (combine (seq 0 (List.length sources)) sources)).
  { clear - Hi. assert (G : forall (l : list json) k i, nth_error l i = Some src -> In ((k + i)%nat, src) (combine (seq k (List.length l)) l)).
    { induction l as [|x l IH]; intros k [|j] E; try discriminate; cbn in E |- *.
      - injection E as ->. left. f_equal. lia.
      - right. replace (k + S j)%nat with (S k + j)%nat by lia. apply IH, E. }
    apply (G sources 0%nat i Hi). }
  destruct (mapM_ok_in _ _ _ Mm _ I) as (md & Em). cbn [fst snd] in Em. unfold source_metadata in Em. rewrite Hl in Em. cbn [bind as_str] in Em. rewrite Hp in Em. cbn [bind as_obj] in Em.
  destruct (get_dataloader glob n p z) as [[cls p1]|] eqn:G; [|discriminate]. cbn [bind fst snd] in Em. destruct (add_default_params cls p1) as [p'|] eqn:A; [|discriminate]. cbn [bind] in Em.
  destruct (construct i cls p' b0) as [r|] eqn:C; [|discriminate]. exact (Hc n p z cls p1 p' i b0 r Sn G A C).
Qed.
