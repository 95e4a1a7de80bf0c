(** Property theorems C67 (files chosen by date) and C68 (days of IceNet forecasts).
    Statements only. *)
From Coq Require Import Permutation.
From Verif Require Import Base PyStr Dates DateSpec CalProofs DateProofs Files FilesSpec FilesProofs.
Open Scope string_scope.
Open Scope Z_scope.

(** C67.  [ord] is the number of a day.  Of files that are all named by a date, those dated
    within the range are read, ends included, in the order given; none is an error. *)
Theorem C67_era5 : forall first last files kept, calendar_date first -> calendar_date last ->
  (forall f, In f files -> exists date, name_era5 f date /\ a_date date) ->
  picked (fun f => exists date, name_era5 f date /\ a_date date /\ date_le first date /\ date_le date last) files kept ->
  era5_files (ord first) (ord last) files = (match kept with [] => Err OSError | _ => Ok kept end).
Proof.
  intros first last files kept C0 C1 H K. unfold era5_files. rewrite (pick_ok _ _ _ _) with (2 := K); [reflexivity|].
  intros f I. destruct (H f I) as (date & N & A). rewrite (era5_date f date N A). cbn [bind]. eexists; split; [reflexivity|].
  destruct A as [C Y]. rewrite in_range_ok by assumption. split; [intros [L R]; exists date; exact (conj N (conj (conj C Y) (conj L R)))|].
  intros (date' & N' & A' & L & R). assert (E : ord date = ord date').
  { pose proof (era5_date f date N (conj C Y)) as E1. rewrite (era5_date f date' N' A') in E1. congruence. }
  rewrite !ord_le in * by (assumption || apply A'). rewrite E. auto.
Qed.
Print Assumptions C67_era5.
Theorem C67_amsr : forall first last files kept, calendar_date first -> calendar_date last ->
  (forall f, In f files -> exists date, name_amsr f date /\ a_date date) ->
  picked (fun f => exists date, name_amsr f date /\ a_date date /\ date_le first date /\ date_le date last) files kept ->
  amsr_files (ord first) (ord last) files = (match kept with [] => Err FileNotFoundError | _ => Ok kept end).
Proof.
  intros first last files kept C0 C1 H K. unfold amsr_files. rewrite (pick_ok _ _ _ _) with (2 := K); [reflexivity|].
  intros f I. destruct (H f I) as (date & N & A). rewrite (amsr_date_ok f date N A). cbn [bind]. eexists; split; [reflexivity|].
  destruct A as [C Y]. rewrite in_range_ok by assumption. split; [intros [L R]; exists date; exact (conj N (conj (conj C Y) (conj L R)))|].
  intros (date' & N' & A' & L & R). assert (E : ord date = ord date').
  { pose proof (amsr_date_ok f date N (conj C Y)) as E1. rewrite (amsr_date_ok f date' N' A') in E1. congruence. }
  rewrite !ord_le in * by (assumption || apply A'). rewrite E. auto.
Qed.
Print Assumptions C67_amsr.
(** One file with something else in the place of the date: an error, whatever the others. *)
Theorem C67_undated : forall first last files dir prefix text suffix, In (dir ++ prefix ++ text ++ suffix) files -> directory dir ->
  String.length prefix = 10%nat -> String.length suffix = 3%nat -> lacks "/" prefix -> lacks "/" text -> lacks "/" suffix ->
  (forall date, a_date date -> ~ written_as text date /\ ~ written_with_blank text date) ->
  era5_files first last files = Err ValueError.
Proof.
  intros first last files dir p t s I D P S3 Lp Lt Ls H. unfold era5_files.
  assert (E : strptime t = None).
  { destruct (strptime t) as [date|] eqn:E; [|reflexivity]. exfalso. apply strptime_inv in E as (W & C & Y). destruct (H date (conj C Y)). tauto. }
  assert (K : pick (fun f => d <- file_date (middle (basename f)) ;; Ok ((first <=? d) && (d <=? last))) files = Err ValueError); [|rewrite K; reflexivity].
  induction files as [|f files IH]; [destruct I|]. cbn [pick]. unfold file_date at 1. destruct I as [->|I].
  - rewrite basename_is by (assumption || (rewrite !lacks_app; auto)). rewrite middle_is, E by assumption. reflexivity.
  - destruct (strptime (middle (basename f))) as [[[y m] d]|]; [|reflexivity]. cbn [bind]. rewrite (IH I). reflexivity.
Qed.
Print Assumptions C67_undated.

Definition hours (date : Z * Z * Z) (hour : Z) : Z := 24 * ord date + hour.
(** ECMWF wave forecasts in one directory: those of the last run before the start of the
    range, for times within it. *)
Definition made_at (dir f : string) (c : Z) : Prop := exists date h n, name_ecmwf dir f date h n /\ a_date date /\ c = hours date h.
Definition valid_at (dir f : string) (v : Z) : Prop := exists date h n, name_ecmwf dir f date h n /\ a_date date /\ v = hours date h + n.
(** The last run before [start]. *)
Definition last_run (dir : string) (files : list string) (start c : Z) : Prop :=
  (exists f, In f files /\ made_at dir f c) /\ c < start /\ (forall f c', In f files -> made_at dir f c' -> c' < start -> c' <= c).
Theorem C67_ecmwf : forall dir first last files, directory dir ->
  (forall f, In f files -> exists date h n, name_ecmwf dir f date h n /\ a_date date) ->
  let start := hours first 0 in let stop := hours last 0 in
  match ecmwf (ord first) (ord last) files with
  | Ok l => l <> [] /\ exists c l', last_run dir files start c /\ Permutation l l' /\
      picked (fun f => made_at dir f c /\ exists v, valid_at dir f v /\ start <= v <= stop) files l'
  | Err e => e = FileNotFoundError /\
      ((forall f c, In f files -> made_at dir f c -> start <= c) \/
       exists c, last_run dir files start c /\ forall f v, In f files -> made_at dir f c -> valid_at dir f v -> ~ (start <= v <= stop))
  end.
Proof.
  intros dir first last files Dir H start stop.
  assert (M : forall f c, In f files -> (made f = Some c <-> made_at dir f c)).
  { intros f c I. split.
    - intros E. destruct (H f I) as (date & h & n & N & A). exists date, h, n. split; [exact N|]. split; [exact A|]. rewrite (proj1 (made_ok dir f date h n Dir N A)) in E. injection E as <-. reflexivity.
    - intros (date & h & n & N & A & ->). apply (made_ok dir f date h n Dir N A). }
  assert (V : forall f c, In f files -> (made_for f = Some c <-> valid_at dir f c)).
  { intros f c I. split.
    - intros E. destruct (H f I) as (date & h & n & N & A). exists date, h, n. split; [exact N|]. split; [exact A|]. rewrite (proj2 (made_ok dir f date h n Dir N A)) in E. injection E as <-. reflexivity.
    - intros (date & h & n & N & A & ->). apply (made_ok dir f date h n Dir N A). }
  assert (Pm := sorted_desc_perm files). assert (Q : forall f, In f (sorted_desc files) <-> In f files) by (intros f; split; apply Permutation_in; [symmetry|]; exact Pm).
  unfold ecmwf, ecmwf_files.
  replace (24 * ord first) with start by (unfold start, hours; lia). replace (24 * ord last) with stop by (unfold stop, hours; lia).
  pose proof (first_before_ok made start (sorted_desc files)) as F.
  assert (F1 : forall f, In f (sorted_desc files) -> exists d, made f = Some d).
  { intros f I. apply Q in I. destruct (H f I) as (date & h & n & N & A). eexists. apply (made_ok dir f date h n Dir N A). }
  assert (F2 : forall f, In f (sorted_desc files) -> exists d, made_for f = Some d).
  { intros f I. apply Q in I. destruct (H f I) as (date & h & n & N & A). eexists. apply (made_ok dir f date h n Dir N A). }
  specialize (F F1 (sorted_desc_sorted files)).
  assert (Ag : forall f g a b, In f (sorted_desc files) -> In g (sorted_desc files) -> made f = Some a -> made g = Some b -> str_leb f g = true -> a <= b).
  { intros f g a b I J A B L. apply Q in I, J. apply M in A, B; [|assumption..]. destruct A as (df & hf & nf & Nf & Af & ->), B as (dg & hg & ng & Ng & Ag & ->).
    unfold hours. apply (names_agree dir f g df hf nf dg hg ng); assumption. }
  specialize (F Ag). destruct (first_before made start (sorted_desc files)) as [c|e]; cbn [bind].
  2:{ destruct F as [-> F]. split; [reflexivity|left]. intros f c I A. apply (F f c); [apply Q, I|apply M; assumption]. }
  destruct F as ((f0 & I0 & B0) & Lc & Mx).
  assert (LR : last_run dir files start c).
  { split; [exists f0; split; [apply Q, I0|apply M; [apply Q, I0|exact B0]]|]. split; [exact Lc|]. intros f c' I A L. apply (Mx f c'); [apply Q, I|apply M; assumption|exact L]. }
  set (q1 := fun f => match made f with Some d => d =? c | None => false end).
  set (q2 := fun f => match made_for f with Some t => (start <=? t) && (t <=? stop) | None => false end).
  rewrite (pick_filter _ q1) by (intros f I; unfold reads, q1; destruct (F1 f I) as (d & ->); reflexivity). cbn [bind].
  rewrite (pick_filter _ q2) by (intros f I; apply filter_In in I as [I _]; unfold reads, q2; destruct (F2 f I) as (d & ->); reflexivity). cbn [bind].
  rewrite filter_filter. set (q := fun x => q1 x && q2 x).
  assert (K : picked (fun f => made_at dir f c /\ exists v, valid_at dir f v /\ start <= v <= stop) files (filter q files)).
  { apply filter_picked. intros f I. unfold q, q1, q2. apply Q in I as J. destruct (F1 f J) as (d & E1), (F2 f J) as (v & E2). rewrite E1, E2, !andb_true_iff, Z.eqb_eq, !Z.leb_le. split.
    - intros [-> L]. split; [apply M; assumption|]. exists v. split; [apply V; assumption|exact L].
    - intros (A & v' & B & L). apply M in A; [|exact I]. apply V in B; [|exact I]. rewrite E1 in A. rewrite E2 in B. injection A as ->. injection B as ->. auto. }
  assert (Pq := filter_perm q _ _ Pm). destruct (filter q (sorted_desc files)) as [|g gs] eqn:E.
  - split; [reflexivity|right]. exists c. split; [exact LR|]. intros f v I A B L.
    apply Permutation_sym, Permutation_nil in Pq. rewrite Pq in K. apply (proj2 (picked_in _ _ _ K f)). split; [exact I|]. split; [exact A|]. exists v. auto.
  - split; [discriminate|]. exists c, (filter q files). split; [exact LR|]. split; [symmetry; exact Pq|exact K].
Qed.
Print Assumptions C67_ecmwf.
Ltac digits := let H := fresh in let c := fresh in intros c H; cbn in H; unfold is_digit; repeat (destruct H as [<-|H]; [cbn; lia|]); contradiction.
Ltac without := let H := fresh in intros H; cbn in H; repeat (destruct H as [H|H]; [discriminate|]); contradiction.
Ltac a_name := repeat match goal with |- _ /\ _ => split end; try reflexivity; try discriminate; try digits; try without; try (cbn; lia).
Example january : a_date (2020, 1, 1) /\ a_date (2020, 1, 2) /\ a_date (2020, 1, 3).
Proof. repeat split; try (exists 31; split; [apply ml_31; cbn; tauto|lia]); cbn; lia. Qed.
Example C67_example : name_era5 "data/era5_data_2020-01-02.nc" (2020, 1, 2) /\ name_amsr "asi-AMSR2-s6250-20200102-v5.4.nc" (2020, 1, 2) /\
  name_ecmwf "a/" "a/20200102120000-24h-wave-fc.grib2" (2020, 1, 2) 12 24 /\ name_icenet "south_daily_forecast.2020-01-02.nc" (2020, 1, 2).
Proof.
  repeat split.
  - exists "data/", "era5_data_", "2020-01-02", ".nc". a_name; [right; exists "data"; reflexivity|]. exists "2020", "01", "02". a_name; right; reflexivity.
  - exists "asi-AMSR2-s6250", "2020", "01", "02", "v5.4.nc". a_name.
  - exists "2020", "01", "02", "12", "24", "h", "wave", "fc.grib2". a_name.
  - exists "south_daily_forecast", "2020-01-02", "nc". a_name. exists "2020", "01", "02". a_name; right; reflexivity.
Qed.
Example C67_example_run : 
  era5_files (ord (2020, 1, 1)) (ord (2020, 1, 2)) ["d/era5_data_2020-01-03.nc"; "d/era5_data_2020-01-02.nc"; "era5_data_2020-01-01.nc"] = Ok ["d/era5_data_2020-01-02.nc"; "era5_data_2020-01-01.nc"] /\
  ecmwf (ord (2020, 1, 2)) (ord (2020, 1, 3)) ["a/20200101000000-24h-wave-fc.grib2"; "a/20200101120000-0h-wave-fc.grib2"; "a/20200101120000-12h-wave-fc.grib2"; "a/20200102000000-0h-wave-fc.grib2"; "a/20200101120000-36h-wave-fc.grib2"]
    = Ok ["a/20200101120000-36h-wave-fc.grib2"; "a/20200101120000-12h-wave-fc.grib2"].
Proof. split; vm_compute; reflexivity. Qed.
(** With files in two directories an older run may be taken: files are sorted by their full
    names. *)
Theorem C67_ecmwf_refuted : exists old new, made_at "b/" old (hours (2020, 1, 1) 0) /\ made_at "a/" new (hours (2020, 1, 2) 0) /\
  valid_at "a/" new (hours (2020, 1, 3) 0) /\ ecmwf (ord (2020, 1, 3)) (ord (2020, 1, 4)) [new; old] = Ok [old].
Proof.
  exists "b/20200101000000-48h-wave-fc.grib2", "a/20200102000000-24h-wave-fc.grib2". split; [|split; [|split]]; [| | |vm_compute; reflexivity].
  - exists (2020, 1, 1), 0, 48. split; [|split; [apply january|reflexivity]]. exists "2020", "01", "01", "00", "48", "h", "wave", "fc.grib2". a_name.
  - exists (2020, 1, 2), 0, 24. split; [|split; [apply january|reflexivity]]. exists "2020", "01", "02", "00", "24", "h", "wave", "fc.grib2". a_name.
  - exists (2020, 1, 2), 0, 24. split; [|split; [apply january|reflexivity]]. exists "2020", "01", "02", "00", "24", "h", "wave", "fc.grib2". a_name.
Qed.
Print Assumptions C67_ecmwf_refuted.

(** IceNet: the last file dated before the start, or ValueError if there is none. *)
Theorem C67_icenet_partial : forall first files, calendar_date first ->
  (forall f, In f files -> exists date, name_icenet f date /\ a_date date) ->
  match icenet_file (ord first) files with
  | Ok (n, f) => exists date, n = ord date /\ In f files /\ name_icenet f date /\ a_date date /\ date_lt date first /\
      forall f' date', In f' files -> name_icenet f' date' -> a_date date' -> date_lt date' first -> date_le date' date
  | Err e => e = ValueError /\ forall f date, In f files -> name_icenet f date -> a_date date -> ~ date_lt date first
  end.
Proof.
  intros first files C0 H. unfold icenet_file.
  assert (L : forall date, calendar_date date -> (date_lt date first <-> ord date < ord first)).
  { intros date C. unfold date_lt. rewrite ord_le by assumption. split; [|intros X; split; [lia|intros ->; lia]].
    intros [X N]. destruct (Z.eq_dec (ord date) (ord first)) as [E|]; [|lia]. exfalso. apply N. destruct date as [[y m] d], first as [[y' m'] d'].
    cbn [ord] in E. apply calendar_valid in C, C0. exact (ord_inj y m d y' m' d' C C0 E). }
  destruct (candidates_total (ord first) files) as (r & R).
  { intros f I. destruct (H f I) as (date & N & A). eexists. apply (icenet_date_ok f date N A). }
  rewrite R. cbn [bind]. pose proof (candidates_ok _ _ _ R) as K. pose proof (latest_ok r) as T. destruct (latest r) as [[n f]|].
  - destruct T as [I M]. apply K in I as (I & D & Ln). destruct (H f I) as (date & N & A). exists date.
    assert (E : n = ord date) by (rewrite (icenet_date_ok f date N A) in D; congruence).
    split; [exact E|]. split; [exact I|]. split; [exact N|]. split; [exact A|]. split; [apply L; [apply A|lia]|].
    intros f' date' I' N' A' L'. apply ord_le; [apply A'|apply A|]. rewrite <- E. apply (M (ord date') f'). apply K. split; [exact I'|]. split; [apply icenet_date_ok; assumption|]. apply L; [apply A'|exact L'].
  - split; [reflexivity|]. intros f date I N A X. subst r. apply (proj2 (K (ord date) f)). split; [exact I|]. split; [apply icenet_date_ok; assumption|]. apply L; [apply A|exact X].
Qed.
Print Assumptions C67_icenet_partial.
(** A dot earlier in the path, even "./", and the file is rejected. *)
Theorem C67_icenet_refuted : exists dir name, name_icenet name (2020, 1, 2) /\ directory dir /\
  icenet_file (ord (2020, 1, 3)) [name] = Ok (ord (2020, 1, 2), name) /\ icenet_file (ord (2020, 1, 3)) [dir ++ name] = Err ValueError.
Proof.
  exists "./", "south_daily_forecast.2020-01-02.nc". split; [apply C67_example|]. split; [right; exists "."; reflexivity|]. split; vm_compute; reflexivity.
Qed.
Print Assumptions C67_icenet_refuted.

(** C68.  The days of the range except its last are read, all from the last forecast before
    the range, in order; everything else is an error. *)
Theorem C68_days_partial : forall t0 t1 made times leads, t0 <= t1 ->
  match icenet_leads t0 t1 made times leads with
  | Ok (day, ahead) => In day times /\ day < t0 /\ (forall day', In day' times -> day' < t0 -> day' <= day) /\
      icenet_days t0 t1 made times leads = Ok (zrange t0 t1) /\ (forall l, In l ahead -> 1 <= l <= leads) /\
      map (fun l => day + l) ahead = zrange t0 t1
  | Err AssertionError => leads <= t1 - t0 \/ made + leads <= t1 \/ exists day, In day times /\ day < t0 /\ day + leads <= t1
  | Err EOFError => forall day, In day times -> ~ (t0 - leads <= day < t0)
  | Err _ => False
  end.
Proof.
  intros t0 t1 made times leads L. unfold icenet_days. unfold icenet_leads at 1.
  destruct (Z.ltb_spec (t1 - t0) leads) as [A|A]; cbn [negb]; [|left; lia].
  destruct (Z.ltb_spec t1 (made + leads)) as [B|B]; cbn [negb]; [|right; left; lia].
  pose proof (search_ok times t0 (Z.to_nat leads) 1) as F. destruct (search times t0 1 (Z.to_nat leads)) as [a|] eqn:E.
  2:{ intros day I R. apply (F (t0 - day)); [lia|]. replace (t0 - (t0 - day)) with day by lia. exact I. }
  destruct F as (Ra & I & M). destruct (Z.ltb_spec (t1 - t0) (leads - a)) as [D|D]; cbn [negb]; [|right; right; exists (t0 - a); split; [exact I|lia]].
  assert (Z : map (fun l => t0 - a + l) (zrange a (t1 - t0 + a)) = zrange t0 t1) by (rewrite zrange_shift; f_equal; lia).
  split; [exact I|]. split; [lia|]. split.
  { intros day' I' L'. destruct (Z.le_gt_cases day' (t0 - a)) as [X|X]; [exact X|exfalso]. apply (M (t0 - day')); [lia|]. replace (t0 - (t0 - day')) with day' by lia. exact I'. }
  split; [|split; [|exact Z]].
  - unfold icenet_leads. rewrite E. destruct (Z.ltb_spec (t1 - t0) leads); [|lia]. destruct (Z.ltb_spec t1 (made + leads)); [|lia]. destruct (Z.ltb_spec (t1 - t0) (leads - a)); [|lia].
    cbn [negb bind fst snd]. rewrite Z. reflexivity.
  - intros l Il. apply zrange_in in Il. lia.
Qed.
Print Assumptions C68_days_partial.
Theorem C68_zrange : forall a b x, In x (zrange a b) <-> a <= x < b.
Proof. exact zrange_in. Qed.
Print Assumptions C68_zrange.
(** The last day of the range is never read, so a range of one day gives no data. *)
Theorem C68_last_day_refuted : (forall t0 t1 made times leads days, icenet_days t0 t1 made times leads = Ok days -> ~ In t1 days) /\
  icenet_days 100 100 99 [99; 98] 93 = Ok [].
Proof.
  split; [|vm_compute; reflexivity]. intros t0 t1 made times leads days E I. unfold icenet_days in E.
  destruct (icenet_leads t0 t1 made times leads) as [[day ahead]|] eqn:R; [|discriminate]. cbn [bind fst snd] in E. injection E as <-.
  unfold icenet_leads in R. destruct (t1 - t0 <? leads), (t1 <? made + leads); cbn [negb] in R; try discriminate.
  destruct (search times t0 1 (Z.to_nat leads)) as [a|]; [|discriminate]. destruct (t1 - t0 <? leads - a); [|discriminate]. cbn [negb] in R. injection R as <- <-.
  rewrite zrange_shift in I. apply zrange_in in I. lia.
Qed.
Print Assumptions C68_last_day_refuted.
Example C68_example : icenet_leads 100 103 98 [96; 98; 101] 93 = Ok (98, [2; 3; 4]) /\ icenet_days 100 103 98 [96; 98; 101] 93 = Ok [100; 101; 102] /\
  icenet_days 100 103 98 [101] 93 = Err EOFError.
Proof. repeat split; vm_compute; reflexivity. Qed.
