(** Property theorem C74: forecasts.  Statements only. *)
From Coq Require Import Permutation.
From Verif Require Import Base QLib Geo Graph Cell Loaders Builder Env Construct Spec MeshSpec DataSpec TrimProofs XrProofs ConstructSpec ConstructProofs
  Downsample Import ImportSpec ImportProofs Dates PyStr DateSpec Files FilesSpec FilesProofs PropsFiles Forecast ForecastSpec ForecastProofs.
Open Scope Q_scope.

(** C74.  IceNet: the source holds, in percent, the predictions for each day of the period
    but the last at the cells of the region, all of the last forecast made before the
    period. *)
Theorem C74_icenet_partial : forall open b t0 t1 files c f run, plain_region b -> time_range b = [t0; t1] -> (t0 <= t1)%Z ->
  icenet_file t0 files = Ok (c, f) -> last_before (i_runs (open f)) t0 run -> (t1 < run + i_leads (open f))%Z -> (t1 < c + i_leads (open f))%Z ->
  exists d, load_icenet open b t0 t1 files = Ok d /\ selected (belongs b) (predictions (open f) run t0 (Z.to_nat (t1 - t0))) d.
Proof.
  intros open b t0 t1 files c f run R T L E B A1 A2. destruct (leads_ok t0 t1 c (i_runs (open f)) (i_leads (open f)) run L B A1 A2) as (ahead & X).
  exact (icenet_loads open b t0 t1 files c f run ahead R T L E X).
Qed.
Print Assumptions C74_icenet_partial.
(** Whatever it loads comes from the last forecast of the chosen file. *)
Theorem C74_icenet_only : forall open b t0 t1 files d, plain_region b -> time_range b = [t0; t1] -> (t0 <= t1)%Z -> load_icenet open b t0 t1 files = Ok d ->
  exists c f run, icenet_file t0 files = Ok (c, f) /\ last_before (i_runs (open f)) t0 run /\ selected (belongs b) (predictions (open f) run t0 (Z.to_nat (t1 - t0))) d.
Proof.
  intros open b t0 t1 files d R T L E. assert (E' := E). unfold load_icenet, import_icenet in E. destruct (icenet_file t0 files) as [[c f]|] eqn:F; [|discriminate]. cbn [bind fst snd] in E.
  destruct (icenet_leads t0 t1 c (i_runs (open f)) (i_leads (open f))) as [[run ahead]|] eqn:X; [|discriminate].
  exists c, f, run. split; [reflexivity|]. destruct (icenet_import open b t0 t1 files c f F run ahead X L) as [B _]. split; [exact B|].
  destruct (icenet_loads open b t0 t1 files c f run ahead R T L F X) as (d' & E2 & S). rewrite E' in E2. injection E2 as <-. exact S.
Qed.
Print Assumptions C74_icenet_only.
(** So nothing is known of the last day, and a period of one day has no data, whatever the
    forecast. *)
Theorem C74_icenet_last_refuted : forall open b t0 t1 files d, plain_region b -> time_range b = [t0; t1] -> (t0 <= t1)%Z -> load_icenet open b t0 t1 files = Ok d ->
  (forall p, In p d -> p_time p <> Some t1) /\ (t0 = t1 -> d = []).
Proof.
  intros open b t0 t1 files d R T L E. destruct (C74_icenet_only open b t0 t1 files d R T L E) as (c & f & run & _ & B & S). split.
  - intros p I. apply (selected_In _ _ _ _ S) in I as [I _]. unfold predictions in I. apply in_flat_map in I as (k & Ik & I). apply in_seq in Ik. apply in_map_iff in I as (x & <- & _).
    cbn [p_time]. intros X. injection X as X. lia.
  - intros ->. rewrite Z.sub_diag in S. cbn in S. inversion S. reflexivity.
Qed.
Print Assumptions C74_icenet_last_refuted.
Definition fc_ice : icenet_ds := mkIce [ord (2020, 1, 1)%Z; ord (2020, 1, 2)%Z] 93 [(-65, -60); (-55, -50); (-65, 10)] (fun run l k => if Nat.eqb k 2 then None else Some (inject_Z l * (1#200))).
Definition fc_region : boundary := mkB (-70) (-50) (-70) (-40) [ord (2020, 1, 3)%Z; ord (2020, 1, 5)%Z].
Example C74_icenet_case : plain_region fc_region /\ last_before (i_runs fc_ice) (ord (2020, 1, 3)%Z) (ord (2020, 1, 2)%Z) /\
  icenet_file (ord (2020, 1, 3)%Z) ["south_daily_forecast.2020-01-02.nc"%string] = Ok (ord (2020, 1, 2)%Z, "south_daily_forecast.2020-01-02.nc"%string) /\
  exists d, load_icenet (fun _ => fc_ice) fc_region (ord (2020, 1, 3)%Z) (ord (2020, 1, 5)%Z) ["south_daily_forecast.2020-01-02.nc"%string] = Ok d /\ List.length d = 4%nat.
Proof.
  split; [unfold plain_region; cbn; repeat split; try lra; right; do 2 eexists; split; [reflexivity|vm_compute; discriminate]|].
  split; [split; [right; left; reflexivity|split; [vm_compute; reflexivity|intros r [<-|[<-|[]]] _; vm_compute; discriminate]]|].
  split; [vm_compute; reflexivity|]. eexists. split; [vm_compute; reflexivity|reflexivity].
Qed.

(** ECMWF wave heights, with pandas before version 2, or if the hours of the files happen to
    be in order: the source holds the heights of the last run before the period for the
    hours from its first midnight to that of its last day. *)
Theorem C74_ecmwf_partial : forall strict dir open lats longs first last b files, directory dir ->
  (forall f, In f files -> exists date h n, name_ecmwf dir f date h n /\ a_date date) ->
  (forall f, In f files -> x_lat (open f) = lats /\ x_long (open f) = longs) -> decreasing lats -> increasing longs ->
  plain_region b -> time_range b = [ord first; ord last] ->
  forall fs, ecmwf (ord first) (ord last) files = Ok fs ->
  (strict = false \/ forall ts, x_time (stack open fs) = Some ts -> monotone Z.leb (map fst ts) = true) ->
  exists c, last_run dir files (hours first 0) c /\
  let held p := exists f v, In f files /\ made_at dir f c /\ valid_at dir f v /\ (hours first 0 <= v <= hours last 0)%Z /\
    grid_point (fun i j => x_val (open f) i j 0%nat) lats longs v p in
  (forall d, (forall p, In p d <-> held p) -> longs_in_range some_known d /\ reaches some_known b d) ->
  exists ds, load_ecmwf strict open b (ord first) (ord last) files = Ok ds /\ forall p, In p (xr_points ds) <-> held p /\ mem (region b) (p_long p) (p_lat p).
Proof.
  intros strict dir open lats longs first last b files Dir H G D I R T fs E St.
  pose proof (C67_ecmwf dir first last files Dir H) as C. cbv zeta in C. rewrite E in C. destruct C as (N & c & l' & LR & Pm & K). exists c. split; [exact LR|].
  intros held Re. destruct (ecmwf_in _ _ _ _ E) as [_ V].
  assert (Mem : forall f, In f fs <-> In f files /\ made_at dir f c /\ exists v, valid_at dir f v /\ (hours first 0 <= v <= hours last 0)%Z).
  { intros f. split; [intros J; apply (Permutation_in _ Pm) in J; apply (picked_in _ _ _ K f) in J; exact J|].
    intros J. apply (Permutation_in _ (Permutation_sym Pm)). apply (picked_in _ _ _ K f). exact J. }
  assert (Vf : forall f v, In f files -> (made_for f = Some v <-> valid_at dir f v)).
  { intros f v J. split.
    - intros X. destruct (H f J) as (date & h & n & Nm & A). exists date, h, n. split; [exact Nm|]. split; [exact A|]. rewrite (proj2 (made_ok dir f date h n Dir Nm A)) in X. injection X as <-. reflexivity.
    - intros (date & h & n & Nm & A & ->). apply (made_ok dir f date h n Dir Nm A). }
  assert (Hd : forall p, stacked open fs lats longs p <-> held p).
  { intros p. split.
    - intros (f & h & J & X & P). apply Mem in J as (J & Ma & v & Va & L). apply (Vf f h J) in X as Va'. exists f, h. split; [exact J|]. split; [exact Ma|]. split; [exact Va'|].
      split; [|exact P]. apply (Vf f v J) in Va. rewrite X in Va. injection Va as <-. exact L.
    - intros (f & v & J & Ma & Va & L & P). exists f, v. split; [apply Mem; split; [exact J|]; split; [exact Ma|]; exists v; split; assumption|]. split; [apply (Vf f v J), Va|exact P]. }
  destruct (ecmwf_loads open fs lats longs (ord first) (ord last) N V) with (strict := strict) (b := b) (files := files) as (ds & L & X); [|exact R|exact T|exact E|exact D|exact I| |exact St|].
  - intros f J. apply Mem in J as [J _]. exact (G f J).
  - intros d Hp. apply Re. intros p. rewrite Hp. apply Hd.
  - exists ds. split; [exact L|]. intros p. rewrite X, Hd. reflexivity.
Qed.
Print Assumptions C74_ecmwf_partial.
(** With pandas 2 or later: KeyError whenever the hours of the files, taken in reverse
    alphabetical order, are not increasing. *)
Theorem C74_ecmwf_refuted : forall open lats longs t0 t1 b files fs, plain_region b -> time_range b = [t0; t1] -> ecmwf t0 t1 files = Ok fs ->
  (forall f, In f fs -> x_lat (open f) = lats /\ x_long (open f) = longs) -> decreasing lats -> increasing longs ->
  (forall d, (forall p, In p d <-> stacked open fs lats longs p) -> longs_in_range some_known d /\ reaches some_known b d) ->
  (exists i j f g v w, (i < j)%nat /\ nth_error fs i = Some f /\ nth_error fs j = Some g /\ made_for f = Some v /\ made_for g = Some w /\ (w < v)%Z) ->
  load_ecmwf true open b t0 t1 files = Err KeyError.
Proof.
  intros open lats longs t0 t1 b files fs R T E G D I Re (i & j & f & g & v & w & Lij & Fi & Gj & Ev & Ew & Lvw). destruct (ecmwf_in _ _ _ _ E) as [N V].
  apply (ecmwf_fails open fs lats longs t0 t1 N V G b files R T E D I Re). intros ts Ets. cbn [stack x_time] in Ets. injection Ets as <-.
  set (hs := map _ fs). assert (A : nth_error hs i = Some v) by (unfold hs; rewrite (map_nth_error _ i fs Fi), Ev; reflexivity).
  assert (B : nth_error hs j = Some w) by (unfold hs; rewrite (map_nth_error _ j fs Gj), Ew; reflexivity).
  replace (map fst (combine hs (seq 0 (List.length fs)))) with hs.
  2:{ unfold hs. rewrite <- (map_length (fun f => match made_for f with Some h => h | None => 0%Z end) fs) at 1. clear. generalize (map (fun f => match made_for f with Some h => h | None => 0%Z end) fs). intros l.
      generalize 0%nat. induction l as [|x l IH]; intros k; [reflexivity|]. cbn. rewrite <- IH. reflexivity. }
  clear - Lij A B Lvw. revert i j v Lij A B Lvw. induction hs as [|x hs IH]; intros i j v Lij A B Lvw; [destruct i; discriminate|].
  destruct j as [|j]; [lia|]. cbn in B. destruct hs as [|y hs]; [destruct j; discriminate|]. change (monotone Z.leb (x :: y :: hs)) with (Z.leb x y && monotone Z.leb (y :: hs)).
  destruct i as [|i].
  - injection A as ->. destruct (Z.leb_spec v y) as [L|L]; [|reflexivity]. destruct j as [|j]; [injection B as ->; lia|]. cbn [andb]. apply (IH 0%nat (S j) y); [lia|reflexivity|exact B|lia].
  - rewrite (IH i j v); [apply andb_false_r|lia|exact A|exact B|exact Lvw].
Qed.
Print Assumptions C74_ecmwf_refuted.
Definition fc_grid : xrds := mkXr [(-55, 0%nat); (-65, 1%nat)] [(-60, 0%nat); (-50, 1%nat)] None (fun i j _ => [Some (inject_Z (Z.of_nat (i + j)))]).
Definition fc_files : list string := ["20200102120000-12h-wave-fc.grib2"; "20200102120000-15h-wave-fc.grib2"; "20200102120000-9h-wave-fc.grib2"; "20200102000000-30h-wave-fc.grib2"]%string.
Example C74_ecmwf_case : let t0 := ord (2020, 1, 3)%Z in let t1 := ord (2020, 1, 5)%Z in
  ecmwf t0 t1 fc_files = Ok ["20200102120000-15h-wave-fc.grib2"; "20200102120000-12h-wave-fc.grib2"]%string /\
  (exists ds, load_ecmwf false (fun _ => fc_grid) fc_region t0 t1 fc_files = Ok ds /\ List.length (xr_points ds) = 8%nat) /\
  load_ecmwf true (fun _ => fc_grid) fc_region t0 t1 fc_files = Err KeyError /\
  (forall f, In f fc_files -> exists date h n, name_ecmwf "" f date h n /\ a_date date) /\ decreasing (x_lat fc_grid) /\ increasing (x_long fc_grid) /\ plain_region fc_region.
Proof.
  cbv zeta. split; [vm_compute; reflexivity|]. split; [eexists; split; vm_compute; reflexivity|]. split; [vm_compute; reflexivity|]. split.
  - intros f [<-|[<-|[<-|[<-|[]]]]]; [exists (2020, 1, 2)%Z, 12%Z, 12%Z|exists (2020, 1, 2)%Z, 12%Z, 15%Z|exists (2020, 1, 2)%Z, 12%Z, 9%Z|exists (2020, 1, 2)%Z, 0%Z, 30%Z]; (split; [|apply january]).
    + exists "2020"%string, "01"%string, "02"%string, "12"%string, "12"%string, "h"%string, "wave"%string, "fc.grib2"%string. a_name.
    + exists "2020"%string, "01"%string, "02"%string, "12"%string, "15"%string, "h"%string, "wave"%string, "fc.grib2"%string. a_name.
    + exists "2020"%string, "01"%string, "02"%string, "12"%string, "9"%string, "h"%string, "wave"%string, "fc.grib2"%string. a_name.
    + exists "2020"%string, "01"%string, "02"%string, "00"%string, "30"%string, "h"%string, "wave"%string, "fc.grib2"%string. a_name.
  - split; [|split; [|apply C74_icenet_case]].
    + intros [|[|i]] [|[|j]] x y L X Y; cbn in *; try lia; try discriminate; try (injection X as <-; injection Y as <-; cbn; lra); destruct j; discriminate.
    + intros [|[|i]] [|[|j]] x y L X Y; cbn in *; try lia; try discriminate; try (injection X as <-; injection Y as <-; cbn; lra); destruct j; discriminate.
Qed.

Example C74_ecmwf_reaches : let fs := ["20200102120000-15h-wave-fc.grib2"; "20200102120000-12h-wave-fc.grib2"]%string in
  (forall d, (forall p, In p d <-> stacked (fun _ => fc_grid) fs (x_lat fc_grid) (x_long fc_grid) p) -> longs_in_range some_known d /\ reaches some_known fc_region d) /\
  (exists i j f g v w, (i < j)%nat /\ nth_error fs i = Some f /\ nth_error fs j = Some g /\ made_for f = Some v /\ made_for g = Some w /\ (w < v)%Z).
Proof.
  cbv zeta. split.
  - intros d H. split.
    + intros p I _. apply H in I as (f & h & _ & _ & la & i & lo & j & _ & Io & ->). cbn in Io. destruct Io as [X|[X|[]]]; injection X as <- <-; cbn; lra.
    + assert (K : forall la i lo j, In (la, i) (x_lat fc_grid) -> In (lo, j) (x_long fc_grid) -> exists p, In p d /\ some_known p /\ p_lat p = la /\ p_long p = lo).
      { intros la i lo j A B. destruct (made_for "20200102120000-15h-wave-fc.grib2") as [h|] eqn:E; [|vm_compute in E; discriminate].
        exists (mkP la lo (Some h) (x_val fc_grid i j 0%nat)). split; [apply H; exists "20200102120000-15h-wave-fc.grib2"%string, h; split; [left; reflexivity|]; split; [exact E|]; exists la, i, lo, j; auto|].
        split; [eexists; left; reflexivity|]. split; reflexivity. }
      destruct (K (-65) 1%nat (-60) 0%nat) as (p & Ip & Kp & Ap & Op); [right; left; reflexivity|left; reflexivity|].
      destruct (K (-55) 0%nat (-50) 1%nat) as (q & Iq & Kq & Aq & Oq); [left; reflexivity|right; left; reflexivity|].
      split; [exists (-60)|left; exists (-55)]; (split; [|cbn; lra]); exists p, q; rewrite ?Ap, ?Aq, ?Op, ?Oq; repeat split; auto; lra.
  - exists 0%nat, 1%nat. do 4 eexists. split; [lia|]. split; [reflexivity|]. split; [reflexivity|]. split; [vm_compute; reflexivity|]. split; [vm_compute; reflexivity|]. reflexivity.
Qed.

(** ORAS5 currents on axes of latitude and longitude. *)
Theorem C74_oras5_partial : forall b ds, plain_region b -> increasing (x_lat ds) -> increasing (x_long ds) -> dated b ds ->
  exists ds', import_oras5 b (OnAxes ds) = Ok ds' /\ selected (belongs b) (xr_points ds) (xr_points ds').
Proof. intros b ds R A B T. destruct (trim_ok b ds R A B T) as (ds' & E & P & S). exists ds'. split; [exact E|]. rewrite P. apply S. Qed.
Print Assumptions C74_oras5_partial.
(** On ORAS5's own grid they are not read. *)
Theorem C74_oras5_refuted : forall b, import_oras5 b OnGrid = Err KeyError.
Proof. reflexivity. Qed.
Print Assumptions C74_oras5_refuted.
