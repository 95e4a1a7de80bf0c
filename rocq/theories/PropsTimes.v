(** Property theorems C65 and C66: durations, months and ranges of dates.  Statements only. *)
From Verif Require Import Base QLib Dates DateSpec CalProofs Times TimesSpec TimesProofs.
Open Scope Z_scope.

(** C65.  The text states the duration to within half a minute, or half a hundredth of
    an hour. *)
Theorem C65_stated : forall d,
  (d - (1#2880) <= in_days (convert_decimal_days d true) <= d + (1#2880))%Q /\
  (d - (1#4800) <= in_days (convert_decimal_days d false) <= d + (1#4800))%Q.
Proof. intros d. split; [exact (stated d true)|exact (stated d false)]. Qed.
Print Assumptions C65_stated.
(** The units of a duration of so many days, hours and [x] minutes are those days and
    hours and a number of minutes below 60 unless [x] is 59.5 or more. *)
Theorem C65_minutes_partial : forall d days hours x, 0 <= days -> 0 <= hours < 24 -> (0 <= x < 60)%Q ->
  (d == inject_Z days + inject_Z hours / 24 + x / 1440)%Q ->
  exists m, du_minutes (convert_decimal_days d true) = Some m /\ 0 <= m <= 60 /\ (m = 60 <-> (119#2 <= x)%Q) /\
    du_days (convert_decimal_days d true) = (if days =? 0 then None else Some days) /\
    du_hours (convert_decimal_days d true) = (if (days =? 0) && (hours =? 0) then None else Some (inject_Z hours)).
Proof. apply minutes_shown. Qed.
Print Assumptions C65_minutes_partial.
(** Without minutes, the hours are below 24 unless there are 23.995 or more. *)
Theorem C65_hours_partial : forall d days x, 0 <= days -> (0 <= x < 24)%Q -> (d == inject_Z days + x / 24)%Q ->
  exists h, du_hours (convert_decimal_days d false) = Some h /\ (0 <= h <= 24)%Q /\ ((h == 24)%Q <-> (4799#200 <= x)%Q) /\
    du_days (convert_decimal_days d false) = (if days =? 0 then None else Some days) /\ du_minutes (convert_decimal_days d false) = None.
Proof. apply hours_shown. Qed.
Print Assumptions C65_hours_partial.
Example C65_case : convert_decimal_days (5#4) true = mkDur (Some 1) (Some 6%Q) (Some 0) /\
  (5#4 == inject_Z 1 + inject_Z 6 / 24 + 0 / 1440)%Q /\ convert_decimal_days (1#96) true = mkDur None None (Some 15) /\
  exists h, convert_decimal_days (5#4) false = mkDur (Some 1) (Some h) None /\ (h == 6)%Q.
Proof. repeat split; try reflexivity. eexists. split; [vm_compute; reflexivity|reflexivity]. Qed.
(** Findings: "1 days 5 hours 60 minutes" and "24.0 hours". *)
Theorem C65_refuted : (exists d, convert_decimal_days d true = mkDur (Some 1) (Some 5%Q) (Some 60)) /\
  (exists d h, (d < 1)%Q /\ convert_decimal_days d false = mkDur None (Some h) None /\ (h == 24)%Q).
Proof.
  split; [exists (1 + (5#24) + (599#10) / 1440)%Q; vm_compute; reflexivity|].
  exists (99999#100000)%Q. eexists. split; [reflexivity|]. split; [vm_compute; reflexivity|reflexivity].
Qed.
Print Assumptions C65_refuted.

(** C66.  For dates of the given month in order, the fraction of its days from the one
    to the other, both included; by default its first and last day. *)
Theorem C66_month_partial : forall year month l s e ds de, month_length year month l -> 1 <= ds -> ds <= de -> de <= l ->
  match s with Some t => day_of_month year month ds t | None => ds = 1 /\ 1000 <= year <= 9999 end ->
  match e with Some t => day_of_month year month de t | None => de = l /\ 1000 <= year <= 9999 end ->
  exists q, frac_of_month year month s e = Ok q /\ (q == inject_Z (de - ds + 1) / inject_Z l)%Q /\ (0 < q <= 1)%Q.
Proof.
  intros year month l s e ds de L D1 D2 D3 Hs He. apply month_length_fun in L as [M ->]. eexists. split; [eapply frac_ok; eauto|].
  split; [reflexivity|]. assert (P : (0 < inject_Z (days_in_month year month))%Q) by (change 0%Q with (inject_Z 0); rewrite <- Zlt_Qlt; lia).
  split.
  - apply Qlt_shift_div_l; [exact P|]. rewrite Qmult_0_l. change 0%Q with (inject_Z 0). rewrite <- Zlt_Qlt. lia.
  - apply Qle_shift_div_r; [exact P|]. rewrite Qmult_1_l, <- Zle_Qle. lia.
Qed.
Print Assumptions C66_month_partial.
(** Dates of another month are rejected, and so are months that do not exist. *)
Theorem C66_month_rejects : forall year month s e,
  (1 <= month <= 12 -> snd (fst (m_date s)) <> month \/ snd (fst (m_date e)) <> month -> frac_of_month year month (Some s) (Some e) = Err AssertionError) /\
  (~ 1 <= month <= 12 -> forall s' e', frac_of_month year month s' e' = Err ValueError).
Proof.
  intros year month s e. unfold frac_of_month. split.
  - intros M H. destruct (Z.leb_spec 1 month); [|lia]. destruct (Z.leb_spec month 12); [|lia]. cbn [andb negb bind].
    destruct (Z.eqb_spec (snd (fst (m_date s))) month); cbn [negb]; [|reflexivity].
    destruct (Z.eqb_spec (snd (fst (m_date e))) month); cbn [negb]; [|reflexivity]. destruct H; contradiction.
  - intros M s' e'. destruct (Z.leb_spec 1 month), (Z.leb_spec month 12); cbn [andb negb]; try reflexivity. lia.
Qed.
Print Assumptions C66_month_rejects.
(** Ranges between moments of the same time of day: the k-th entry is k days after the
    start, and the entries are the days before the end. *)
Theorem C66_range : forall s e, is_moment s -> is_moment e -> m_us s = m_us e ->
  (forall k x, nth_error (date_range s e) k = Some x -> days_after k (m_date s) (m_date x) /\ m_us x = m_us s) /\
  (forall day, (exists x, In x (date_range s e) /\ m_date x = day) <->
     exists i j, days_after i (m_date s) day /\ days_after (S j) day (m_date e)) /\
  NoDup (date_range s e).
Proof.
  intros s e (Cs & Ys & Us) (Ce & Ye & Ue) U.
  assert (A : forall k x, nth_error (date_range s e) k = Some x -> days_after k (m_date s) (m_date x) /\ m_us x = m_us s).
  { intros k x H. rewrite date_range_nth in H. destruct (Z.of_nat k <? timedelta_days e s); [|discriminate]. injection H as <-. split; [apply add_days_after; exact Cs|reflexivity]. }
  split; [exact A|]. split.
  - intros day. split.
    + intros (x & I & <-). apply In_nth_error in I as (k & N). destruct (A k x N) as [D _]. assert (N' := N). rewrite date_range_nth in N'.
      destruct (Z.ltb_spec (Z.of_nat k) (timedelta_days e s)) as [L|]; [|discriminate]. rewrite days_midnight in L by (symmetry; auto).
      assert (O := ordinal_after _ _ _ Cs D). exists k, (Z.to_nat (ordinal (m_date e) - ordinal (m_date x) - 1)). split; [exact D|].
      assert (Cx : calendar_date (m_date x)) by (destruct (days_after_ord k _ _ Cs D); assumption).
      pose proof (ord2ymd_shift (ordinal (m_date x)) (S (Z.to_nat (ordinal (m_date e) - ordinal (m_date x) - 1)))) as K.
      rewrite ordinal_inv in K by exact Cx. replace (ordinal (m_date x) + Z.of_nat (S (Z.to_nat (ordinal (m_date e) - ordinal (m_date x) - 1)))) with (ordinal (m_date e)) in K by lia.
      rewrite ordinal_inv in K by exact Ce. exact K.
    + intros (i & j & D1 & D2). assert (O1 := ordinal_after _ _ _ Cs D1). assert (Cd : calendar_date day) by (destruct (days_after_ord i _ _ Cs D1); assumption).
      assert (O2 := ordinal_after _ _ _ Cd D2). assert (N := date_range_nth s e i). rewrite days_midnight in N by (symmetry; auto).
      destruct (Z.ltb_spec (Z.of_nat i) (ordinal (m_date e) - ordinal (m_date s))) as [L|L]; [|lia].
      eexists. split; [eapply nth_error_In; exact N|]. cbn. rewrite <- O1. apply ordinal_inv. exact Cd.
  - apply NoDup_nth_error. intros i j I E. apply nth_error_Some in I. destruct (nth_error (date_range s e) i) as [x|] eqn:N; [|contradiction].
    symmetry in E. destruct (A _ _ N) as [D1 _]. destruct (A _ _ E) as [D2 _]. apply (ordinal_after _ _ _ Cs) in D1, D2. lia.
Qed.
Print Assumptions C66_range.
Definition day (y m d : Z) : moment := mkMoment (y, m, d) 0.
Example C66_case : month_length 2024 2 29 /\ day_of_month 2024 2 11 (day 2024 2 11) /\
  (exists q, frac_of_month 2024 2 (Some (day 2024 2 11)) None = Ok q /\ (q == 19#29)%Q) /\
  is_moment (day 2023 12 30) /\ is_moment (day 2024 1 2) /\
  date_range (day 2023 12 30) (day 2024 1 2) = [day 2023 12 30; day 2023 12 31; day 2024 1 1].
Proof.
  assert (L : month_length 2024 2 29) by (apply ml_29; split; [exists 506; reflexivity|left; intros [k K]; lia]).
  split; [exact L|]. split; [split; reflexivity|]. split; [eexists; split; [vm_compute; reflexivity|reflexivity]|].
  split; [split; [exists 31; split; [apply ml_31; cbn; auto 10|lia]|split; [unfold year_ok; cbn; lia|cbn; lia]]|].
  split; [split; [exists 31; split; [apply ml_31; cbn; auto 10|lia]|split; [unfold year_ok; cbn; lia|cbn; lia]]|]. vm_compute. reflexivity.
Qed.
(** Findings.  Dates of other years are accepted, so the fraction can exceed 1; dates in
    the wrong order give a negative one; before the year 1000 there are no defaults. *)
Theorem C66_month_refuted :
  (exists s e q, is_moment s /\ is_moment e /\ fst (fst (m_date e)) <> 2024 /\ frac_of_month 2024 1 (Some s) (Some e) = Ok q /\ (1 < q)%Q) /\
  (exists s e q, is_moment s /\ is_moment e /\ frac_of_month 2024 1 (Some s) (Some e) = Ok q /\ (q < 0)%Q) /\
  frac_of_month 999 1 None None = Err ValueError.
Proof.
  assert (M : forall y d, 1 <= y <= 9999 -> 1 <= d <= 31 -> is_moment (day y 1 d)).
  { intros y d Y D. split; [exists 31; split; [apply ml_31; cbn; auto|exact D]|split; [exact Y|cbn; lia]]. }
  split; [|split].
  - exists (day 2024 1 1), (day 2025 1 31). eexists. split; [apply M; lia|]. split; [apply M; lia|]. split; [discriminate|]. split; [vm_compute; reflexivity|reflexivity].
  - exists (day 2024 1 31), (day 2024 1 1). eexists. split; [apply M; lia|]. split; [apply M; lia|]. split; [vm_compute; reflexivity|reflexivity].
  - vm_compute. reflexivity.
Qed.
Print Assumptions C66_month_refuted.
(** With different times of day a day before the end can be left out. *)
Theorem C66_times_refuted : exists s e, is_moment s /\ is_moment e /\
  date_range s e = [s] /\ days_after 2 (m_date s) (m_date e) /\ instant (add_days s 1) < instant e.
Proof.
  exists (mkMoment (2024, 1, 1) 43200000000), (mkMoment (2024, 1, 3) 43100000000).
  assert (M : forall d u, 1 <= d <= 31 -> 0 <= u < 86400000000 -> is_moment (mkMoment (2024, 1, d) u)).
  { intros d u D U. split; [exists 31; split; [apply ml_31; cbn; auto|exact D]|split; [unfold year_ok; cbn; lia|exact U]]. }
  split; [apply M; lia|]. split; [apply M; lia|]. split; [vm_compute; reflexivity|]. split; [|vm_compute; reflexivity].
  assert (L : month_length 2024 1 31) by (apply ml_31; cbn; auto).
  eapply da_S; [apply (nd_day 2024 1 1 31 L); lia|]. eapply da_S; [apply (nd_day 2024 1 (1 + 1) 31 L); lia|]. constructor.
Qed.
Print Assumptions C66_times_refuted.
