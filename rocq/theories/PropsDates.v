(** Property theorems C40: dates.  Statements only; every proof is a lemma of
    another file.  [pad] says whether the platform's strftime pads the year with
    zeros (it does on macOS and Windows, not with glibc); [now] is the current time
    in microseconds, day 1 being 1 January of year 1. *)
From Coq Require Import Ascii String.
From Verif Require Import Base PyStr Dates DateSpec StrLib WktProofs CalProofs DateProofs.
Open Scope string_scope.
Open Scope Z_scope.

(** C40.  The current date of the model is the calendar's. *)
Theorem C40_today : forall now, year_ok (today_of now) ->
  calendar_date (today_of now) /\ days_after (Z.to_nat (now / (24 * 60 * 60 * 1000000) - 1)) (1, 1, 1) (today_of now).
Proof.
  change (24 * 60 * 60 * 1000000) with us_per_day.
  intros now T. split; [apply ord2ymd_calendar|]. apply ord2ymd_year in T.
  pose proof (ord2ymd_shift 1 (Z.to_nat (now / us_per_day - 1))) as H.
  rewrite Z2Nat.id in H by lia. replace (1 + (now / us_per_day - 1)) with (now / us_per_day) in H by lia. exact H.
Qed.
Print Assumptions C40_today.
(** Every date of the calendar with a year Python can represent, written with four,
    one or two and one or two digits, is accepted; the result is the same date as
    YYYY-MM-DD, provided the platform pads the year or it has four figures. *)
Theorem C40_dates : forall pad now s date,
  written_as s date -> calendar_date date -> year_ok date -> four_figures pad date ->
  exists s', parse_datetime pad now s = Ok s' /\ iso_text s' date /\ (iso_text s date -> s' = s).
Proof.
  intros pad now s date W C Y F. exists (strftime pad date). split; [apply parse_date; auto|].
  split; [apply strftime_iso; auto|]. intros I. apply (iso_unique (strftime pad date) s date); auto. apply strftime_iso; auto.
Qed.
Print Assumptions C40_dates.
(** TODAY gives the current date, and TODAY + n and TODAY - n the date n days later
    or earlier, with an OverflowError when its year cannot be represented. *)
Theorem C40_relative : forall pad now, year_ok (today_of now) ->
  parse_datetime pad now "TODAY" = Ok (strftime pad (today_of now)) /\
  (forall s n, relative_text s "+" n -> exists date, calendar_date date /\
     days_after (Z.to_nat n) (today_of now) date /\
     (year_ok date -> parse_datetime pad now s = Ok (strftime pad date)) /\
     (~ year_ok date -> parse_datetime pad now s = Err OverflowError)) /\
  (forall s n, relative_text s "-" n -> exists date, calendar_date date /\
     days_after (Z.to_nat n) date (today_of now) /\
     (year_ok date -> parse_datetime pad now s = Ok (strftime pad date)) /\
     (~ year_ok date -> parse_datetime pad now s = Err OverflowError)).
Proof.
  intros pad now T. split; [reflexivity|]. split; intros s n R.
  - apply (relative_date pad now s "+" n); auto.
  - apply (relative_date pad now s "-" n); auto.
Qed.
Print Assumptions C40_relative.
(** Infinite numbers of days overflow, and what is not a number is rejected. *)
Theorem C40_infinite : forall pad now w,
  (In (upper w) ["INF"; "INFINITY"; "+INF"; "+INFINITY"; "-INF"; "-INFINITY"] ->
     parse_datetime pad now ("TODAY+" ++ w) = Err (if String.eqb (upper w) "+INF" || String.eqb (upper w) "+INFINITY" then ValueError else OverflowError)) /\
  (In (upper w) ["INF"; "INFINITY"] -> parse_datetime pad now ("TODAY-" ++ w) = Err OverflowError) /\
  (upper w = "NAN" -> parse_datetime pad now ("TODAY+" ++ w) = Err ValueError /\ parse_datetime pad now ("TODAY-" ++ w) = Err ValueError).
Proof.
  intros pad now w. assert (Ep : upper ("TODAY+" ++ w) = "TODAY+" ++ upper w) by reflexivity.
  assert (Em : upper ("TODAY-" ++ w) = "TODAY-" ++ upper w) by reflexivity.
  unfold parse_datetime. rewrite Ep, Em. split; [|split].
  - intros I. cbn [In] in I. repeat (destruct I as [<-|I]; [vm_compute; reflexivity|]). destruct I.
  - intros I. cbn [In] in I. repeat (destruct I as [<-|I]; [vm_compute; reflexivity|]). destruct I.
  - intros ->. split; vm_compute; reflexivity.
Qed.
Print Assumptions C40_infinite.
(** Whatever is accepted gives a date of the calendar, and one written YYYY-MM-DD is
    given back unchanged when parsed again, at whatever time. *)
Theorem C40_idempotent : forall pad now s s', year_ok (today_of now) -> parse_datetime pad now s = Ok s' ->
  exists date, s' = strftime pad date /\ calendar_date date /\ year_ok date /\
    (four_figures pad date -> iso_text s' date) /\
    (String.length s' = 10%nat -> forall now', parse_datetime pad now' s' = Ok s').
Proof.
  intros pad now s s' T P. destruct (parse_shape pad now s s' T P) as (date & E & C & Y). exists date.
  split; [exact E|]. split; [exact C|]. split; [exact Y|]. split.
  - intros F. rewrite E. apply strftime_iso; auto.
  - intros L now'. apply (parse_idempotent pad now now' s s'); auto.
Qed.
Print Assumptions C40_idempotent.
(** What is neither a written date nor contains TODAY (in any case) is rejected, and
    a rejection is a ValueError or an OverflowError. *)
Theorem C40_rejects : forall pad now s,
  (forall date, calendar_date date -> year_ok date -> ~ written_as s date /\ ~ written_with_blank s date) ->
  contains "TODAY" (upper s) = false ->
  exists e, parse_datetime pad now s = Err e /\ (e = ValueError \/ e = OverflowError).
Proof.
  intros pad now s H N. destruct (parse_datetime pad now s) as [s'|e] eqn:E.
  - apply parse_only in E as [(date & [W|W] & C & Y & _)|E]; [| |congruence]; destruct (H date C Y); contradiction.
  - exists e. split; auto. apply (parse_errors pad now s e E).
Qed.
Print Assumptions C40_rejects.
(** The validator accepts the documented forms; of these the parser accepts all
    dates, TODAY, and the relative ones that stay representable (C40_dates,
    C40_relative).  The validator's other strings: C40_validator_refuted. *)
Theorem C40_validator_partial : forall s,
  (forall date, iso_text s date -> calendar_date date -> year_ok date -> assert_valid_time s = true) /\
  (forall n, relative_text s "+" n \/ relative_text s "-" n -> assert_valid_time s = true) /\
  (match_relative (drop_char " " s) = false -> assert_valid_time s = true ->
     s = "TODAY" \/ exists date, iso_text s date /\ calendar_date date /\ year_ok date) /\
  (match_relative (drop_char " " s) = false -> assert_valid_time s = true ->
     forall pad now, exists s', parse_datetime pad now s = Ok s').
Proof.
  intros s.
  assert (A : match_relative (drop_char " " s) = false -> assert_valid_time s = true ->
     s = "TODAY" \/ exists date, iso_text s date /\ calendar_date date /\ year_ok date).
  { intros M V. unfold assert_valid_time in V. rewrite M in V. cbn [orb] in V.
    destruct (String.eqb_spec s "TODAY"); [auto|]. right. apply fromiso_iff. exact V. }
  split; [|split; [|split]]; auto.
  - intros date I C Y. unfold assert_valid_time. rewrite (proj2 (fromiso_iff s)) by eauto. apply orb_true_r.
  - intros n [R|R]; [apply (valid_relative s "+" n)|apply (valid_relative s "-" n)]; auto.
  - intros M V pad now. destruct (A M V) as [-> |(date & [W _] & C & Y)].
    + eexists. reflexivity.
    + eexists. apply (parse_date pad now s date); auto.
Qed.
Print Assumptions C40_validator_partial.

(** 15:00 on 17 May 2024. *)
Definition some_day : Z := 739023 * us_per_day + 54000000000.
Example C40_case :
  today_of some_day = (2024, 5, 17) /\
  parse_datetime true some_day "2020-2-29" = Ok "2020-02-29" /\
  parse_datetime true some_day "2021-02-29" = Err ValueError /\
  parse_datetime false some_day "TODAY + 10" = Ok "2024-05-27" /\
  parse_datetime false some_day "today-17" = Ok "2024-04-30" /\
  parse_datetime false some_day "TODAY + 0.5" = Ok "2024-05-18" /\
  parse_datetime false some_day "TODAY + 3000000" = Err OverflowError /\
  parse_datetime true some_day "yesterday" = Err ValueError /\
  relative_text "TODAY + 10" "+" 10 /\ iso_text "2024-05-17" (2024, 5, 17) /\ calendar_date (2024, 5, 17) /\
  assert_valid_time "TODAY - 5" = true /\ assert_valid_time "2024-5-17" = false.
Proof.
  repeat match goal with |- _ /\ _ => split end; try (vm_compute; reflexivity).
  - exists "", " ", " ", "10", "". repeat match goal with |- _ /\ _ => split end; try reflexivity; try discriminate;
      intros c I; cbn in I; repeat (destruct I as [<-|I]; [first [reflexivity|unfold is_digit; cbn; lia]|]); destruct I.
  - split; [|reflexivity]. exists "2024", "05", "17". repeat match goal with |- _ /\ _ => split end; try reflexivity; try (right; reflexivity);
      intros c I; cbn in I; repeat (destruct I as [<-|I]; [unfold is_digit; cbn; lia|]); destruct I.
  - exists 31. split; [|lia]. constructor. cbn. tauto.
Qed.

(** Finding: the validator accepts strings the parser rejects. *)
Theorem C40_validator_refuted :
  (forall s, In s ["TODAY,3"; "TODAY+3abc"; "TODAY + 1 2"; "TODAY-3-"; "TODAY+99999999"] -> assert_valid_time s = true) /\
  forall pad, exists e1 e2 e3 e4,
    parse_datetime pad some_day "TODAY,3" = Err e1 /\ parse_datetime pad some_day "TODAY+3abc" = Err e2 /\
    parse_datetime pad some_day "TODAY + 1 2" = Err e3 /\ parse_datetime pad some_day "TODAY+99999999" = Err e4.
Proof.
  split.
  - intros s I. cbn in I. repeat (destruct I as [<-|I]; [reflexivity|]). destruct I.
  - intros pad. exists ValueError, ValueError, ValueError, OverflowError. destruct pad; vm_compute; repeat split.
Qed.
Print Assumptions C40_validator_refuted.
(** Finding: where strftime does not pad the year, a date before the year 1000 is
    not given back as YYYY-MM-DD, and the result is rejected when parsed again. *)
Theorem C40_early_years_refuted : exists s date s',
  iso_text s date /\ calendar_date date /\ year_ok date /\ assert_valid_time s = true /\
  forall now, parse_datetime false now s = Ok s' /\ ~ iso_text s' date /\ parse_datetime false now s' = Err ValueError.
Proof.
  exists "0999-01-01", (999, 1, 1), "999-01-01".
  assert (I : iso_text "0999-01-01" (999, 1, 1)).
  { split; [|reflexivity]. exists "0999", "01", "01".
    repeat match goal with |- _ /\ _ => split end; try reflexivity; try (right; reflexivity);
      intros c I; cbn in I; repeat (destruct I as [<-|I]; [unfold is_digit; cbn; lia|]); destruct I. }
  split; [exact I|]. split; [exists 31; split; [constructor; cbn; tauto|lia]|]. split; [unfold year_ok; cbn; lia|].
  split; [reflexivity|]. intros now. split; [reflexivity|]. split; [|reflexivity].
  intros [_ L]. discriminate.
Qed.
Print Assumptions C40_early_years_refuted.
(** Finding: texts that are neither a date nor TODAY + n are accepted. *)
Theorem C40_accepts_refuted :
  parse_datetime true some_day "TODAY + 3 + 50 years" = Ok "2024-05-20" /\
  parse_datetime true some_day "not TODAY but +3" = Ok "2024-05-20" /\
  parse_datetime true some_day "the day before TODAY: -1e0" = Ok "2024-05-16" /\
  parse_datetime true some_day "2020-01- 5" = Ok "2020-01-05".
Proof. repeat split; vm_compute; reflexivity. Qed.
Print Assumptions C40_accepts_refuted.
