(** Proofs about durations, months and ranges of dates (C65, C66). *)
From Coq Require Import Ascii String.
From Verif Require Import Base QLib PyStr Dates DateSpec StrLib WktProofs CalProofs DateProofs Times TimesSpec.
Open Scope string_scope.
Open Scope Z_scope.

(** ** Rounding *)
Lemma round_near x : (x - (1#2) <= inject_Z (round_half_even x) <= x + (1#2))%Q.
Proof.
  unfold round_half_even. pose proof (Qfloor_le x) as A. pose proof (Qlt_floor x) as B. rewrite inject_Z_plus in B. change (inject_Z 1) with 1%Q in B.
  destruct (qltb_spec (x - inject_Z (Qfloor x)) (1#2)); [lra|]. destruct (qltb_spec (1#2) (x - inject_Z (Qfloor x))).
  - rewrite inject_Z_plus. change (inject_Z 1) with 1%Q. lra.
  - destruct (Z.even (Qfloor x)); [lra|]. rewrite inject_Z_plus. change (inject_Z 1) with 1%Q. lra.
Qed.
Lemma floor_is x n : (inject_Z n <= x < inject_Z n + 1)%Q -> Qfloor x = n.
Proof.
  intros [H1 H2]. pose proof (Qfloor_le x) as A. pose proof (Qlt_floor x) as B. rewrite inject_Z_plus in B. change (inject_Z 1) with 1%Q in B.
  assert (inject_Z n < inject_Z (Qfloor x + 1))%Q by (rewrite inject_Z_plus; change (inject_Z 1) with 1%Q; lra).
  assert (inject_Z (Qfloor x) < inject_Z (n + 1))%Q by (rewrite inject_Z_plus; change (inject_Z 1) with 1%Q; lra).
  rewrite <- Zlt_Qlt in H, H0. lia.
Qed.
(** When a number below an even [n] is rounded to [n]. *)
Lemma round_top x n : Z.even n = true -> (0 <= x < inject_Z n)%Q -> 0 <= round_half_even x <= n /\ (round_half_even x = n <-> (inject_Z n - (1#2) <= x)%Q).
Proof.
  intros Ev [H0 H1]. pose proof (round_near x) as [A B].
  assert (L : 0 <= round_half_even x <= n).
  { split.
    - destruct (Z.le_gt_cases 0 (round_half_even x)) as [K|K]; [exact K|]. assert (X : (inject_Z (round_half_even x) <= inject_Z (-1))%Q) by (rewrite <- Zle_Qle; lia).
      change (inject_Z (-1)) with (-(1))%Q in X. lra.
    - destruct (Z.le_gt_cases (round_half_even x) n) as [K|K]; [exact K|]. assert (X : (inject_Z (n + 1) <= inject_Z (round_half_even x))%Q) by (rewrite <- Zle_Qle; lia).
      rewrite inject_Z_plus in X. change (inject_Z 1) with 1%Q in X. lra. }
  split; [exact L|]. split; [intros E; rewrite E in B; lra|]. intros H.
  assert (I1 : (inject_Z (n - 1) == inject_Z n - 1)%Q) by (change (n - 1) with (n + -1); rewrite inject_Z_plus; reflexivity).
  assert (F : Qfloor x = n - 1).
  { apply floor_is. rewrite I1. lra. }
  unfold round_half_even. rewrite F.
  destruct (qltb_spec (x - inject_Z (n - 1)) (1#2)); [lra|]. destruct (qltb_spec (1#2) (x - inject_Z (n - 1))); [lia|].
  rewrite Z.even_sub, Ev. cbn. lia.
Qed.

Lemma trunc_nonneg q n : (inject_Z n <= q < inject_Z n + 1)%Q -> 0 <= n -> trunc q = n.
Proof.
  intros H N. rewrite <- (floor_is q n H). unfold trunc. destruct q as [a b]. cbn [Qnum Qden]. cbn [Qfloor]. apply Z.quot_div_nonneg; [|lia].
  destruct H as [H _]. assert (X : (0 <= a # b)%Q) by (assert (Y : (inject_Z 0 <= inject_Z n)%Q) by (rewrite <- Zle_Qle; exact N); change (inject_Z 0) with 0%Q in Y; lra).
  unfold Qle in X. cbn in X. lia.
Qed.

Theorem stated (d : Q) (mins : bool) : let unit := (if mins then 1#2880 else 1#4800)%Q in (d - unit <= in_days (convert_decimal_days d mins) <= d + unit)%Q.
Proof.
  unfold convert_decimal_days. set (dd := trunc d). set (hh := ((d - inject_Z dd) * 24)%Q). destruct mins; cbv beta iota zeta.
  - set (h := trunc hh). set (x := ((hh - inject_Z h) * 60)%Q). pose proof (round_near x) as R. set (m := round_half_even x) in *.
    assert (E : (in_days (if negb (dd =? 0)%Z then mkDur (Some dd) (Some (inject_Z h)) (Some m)
         else if negb (h =? 0)%Z then mkDur None (Some (inject_Z h)) (Some m) else mkDur None None (Some m)) ==
         inject_Z dd + inject_Z h * (1#24) + inject_Z m * (1#1440))%Q).
    { destruct (Z.eqb_spec dd 0) as [->|]; [destruct (Z.eqb_spec h 0) as [->|]|]; cbn [negb]; unfold in_days; cbn [of_opt du_days du_hours du_minutes];
        change (inject_Z 0) with 0%Q; field. }
    rewrite E. unfold x, hh in R. lra.
  - set (x := (hh * 100)%Q). pose proof (round_near x) as R. set (m := round_half_even x) in *.
    assert (E : (in_days (if negb (dd =? 0)%Z then mkDur (Some dd) (Some (inject_Z m / 100)%Q) None else mkDur None (Some (inject_Z m / 100)%Q) None) ==
         inject_Z dd + inject_Z m * (1#2400))%Q).
    { destruct (Z.eqb_spec dd 0) as [->|]; cbn [negb]; unfold in_days; cbn [of_opt du_days du_hours du_minutes]; change (inject_Z 0) with 0%Q; field. }
    rewrite E. unfold x, hh in R. lra.
Qed.

Theorem minutes_shown d days hours x : 0 <= days -> 0 <= hours < 24 -> (0 <= x < 60)%Q -> (d == inject_Z days + inject_Z hours / 24 + x / 1440)%Q ->
  exists m, du_minutes (convert_decimal_days d true) = Some m /\ 0 <= m <= 60 /\ (m = 60 <-> (119#2 <= x)%Q) /\
    du_days (convert_decimal_days d true) = (if days =? 0 then None else Some days) /\
    du_hours (convert_decimal_days d true) = (if (days =? 0) && (hours =? 0) then None else Some (inject_Z hours)).
Proof.
  intros D [H0 H1] [X0 X1] E. assert (H2 : (inject_Z 0 <= inject_Z hours)%Q) by (rewrite <- Zle_Qle; exact H0). assert (H3 : (inject_Z hours <= inject_Z 23)%Q) by (rewrite <- Zle_Qle; lia).
  change (inject_Z 0) with 0%Q in H2. change (inject_Z 23) with 23%Q in H3.
  assert (E' : (d == inject_Z days + inject_Z hours * (1#24) + x * (1#1440))%Q) by (rewrite E; field).
  unfold convert_decimal_days. rewrite (trunc_nonneg d days) by (lra || assumption). rewrite (trunc_nonneg ((d - inject_Z days) * 24) hours) by (lra || assumption).
  set (y := (((d - inject_Z days) * 24 - inject_Z hours) * 60)%Q). assert (Ey : (y == x)%Q) by (unfold y; rewrite E; field).
  destruct (round_top y 60 eq_refl) as [R1 R2]; [change (inject_Z 60) with 60%Q; lra|]. change (inject_Z 60 - (1#2))%Q with (119#2)%Q in R2.
  assert (R3 : round_half_even y = 60 <-> (119#2 <= x)%Q) by (rewrite R2, Ey; reflexivity). exists (round_half_even y).
  destruct (days =? 0), (hours =? 0); cbn; auto.
Qed.
Theorem hours_shown d days x : 0 <= days -> (0 <= x < 24)%Q -> (d == inject_Z days + x / 24)%Q ->
  exists h, du_hours (convert_decimal_days d false) = Some h /\ (0 <= h <= 24)%Q /\ ((h == 24)%Q <-> (4799#200 <= x)%Q) /\
    du_days (convert_decimal_days d false) = (if days =? 0 then None else Some days) /\ du_minutes (convert_decimal_days d false) = None.
Proof.
  intros D [X0 X1] E. assert (E' : (d == inject_Z days + x * (1#24))%Q) by (rewrite E; field). unfold convert_decimal_days. rewrite (trunc_nonneg d days) by (lra || assumption).
  set (y := ((d - inject_Z days) * 24 * 100)%Q). assert (Ey : (y == x * 100)%Q) by (unfold y; rewrite E; field).
  destruct (round_top y 2400 eq_refl) as [R1 R2]; [change (inject_Z 2400) with 2400%Q; lra|]. change (inject_Z 2400 - (1#2))%Q with (4799#2)%Q in R2.
  exists (inject_Z (round_half_even y) / 100)%Q. split; [destruct (days =? 0); reflexivity|].
  assert (Q1 : (inject_Z 0 <= inject_Z (round_half_even y) <= inject_Z 2400)%Q) by (split; rewrite <- Zle_Qle; lia). change (inject_Z 0) with 0%Q in Q1. change (inject_Z 2400) with 2400%Q in Q1.
  set (h := (inject_Z (round_half_even y) / 100)%Q). assert (Q2 : (h == inject_Z (round_half_even y) * (1#100))%Q) by (unfold h; field).
  split; [lra|]. split; [|destruct (days =? 0); auto]. clearbody h. split.
  - intros K. assert (K' : (inject_Z (round_half_even y) == inject_Z 2400)%Q) by (change (inject_Z 2400) with 2400%Q; lra). assert (K2 : round_half_even y = 2400) by (apply -> inject_Z_injective; exact K'). apply R2 in K2. lra.
  - intros K. assert (K' : round_half_even y = 2400) by (apply R2; lra). rewrite Q2, K'. reflexivity.
Qed.

(** ** Months *)
Lemma ordinal_month y m d d' : ordinal (y, m, d') - ordinal (y, m, d) = d' - d.
Proof. cbn. unfold ymd2ord. lia. Qed.
Lemma days_midnight a b : m_us a = m_us b -> timedelta_days b a = ordinal (m_date b) - ordinal (m_date a).
Proof.
  intros E. unfold timedelta_days, instant. rewrite E.
  replace (ordinal (m_date b) * us_per_day + m_us b - (ordinal (m_date a) * us_per_day + m_us b)) with ((ordinal (m_date b) - ordinal (m_date a)) * us_per_day) by ring.
  apply Z.div_mul. discriminate.
Qed.

Lemma two_digits_length z : String.length (two_digits z) = 2%nat.
Proof. reflexivity. Qed.
Lemma month_text m : 1 <= m <= 12 -> let t := drop_zeros (two_digits m) in all_digits t /\ (String.length t = 1 \/ String.length t = 2)%nat /\ value t = m.
Proof.
  intros H. assert (m = 1 \/ m = 2 \/ m = 3 \/ m = 4 \/ m = 5 \/ m = 6 \/ m = 7 \/ m = 8 \/ m = 9 \/ m = 10 \/ m = 11 \/ m = 12) as K by lia.
  assert (G : forall t, all_digits t -> (String.length t = 1 \/ String.length t = 2)%nat -> value t = m -> drop_zeros (two_digits m) = t ->
    all_digits (drop_zeros (two_digits m)) /\ (String.length (drop_zeros (two_digits m)) = 1 \/ String.length (drop_zeros (two_digits m)) = 2)%nat /\ value (drop_zeros (two_digits m)) = m).
  { intros t A B C ->. auto. }
  assert (D : forall a, is_digit a -> all_digits (String a "")) by (intros a A c [<-|[]]; exact A).
  assert (D2 : forall a b, is_digit a -> is_digit b -> all_digits (String a (String b ""))) by (intros a b A B c [<-|[<-|[]]]; assumption).
  cbv zeta. repeat destruct K as [->|K]; try subst m;
    (match goal with |- all_digits (drop_zeros (two_digits ?k)) /\ _ => let t := eval vm_compute in (drop_zeros (two_digits k)) in apply (G t) end);
    try reflexivity; try (left; reflexivity); try (right; reflexivity); try (apply D || apply D2); unfold is_digit; cbn; lia.
Qed.
Lemma default_day y m d : 1000 <= y <= 9999 -> 1 <= m <= 12 -> 1 <= d <= days_in_month y m ->
  str_to_datetime (date_text y m (two_digits d)) = Ok (mkMoment (y, m, d) 0).
Proof.
  intros Y M D. assert (L : days_in_month y m <= 31) by (unfold days_in_month; destruct (m =? 2); [destruct (is_leap y)|destruct (_ || _)]; lia).
  unfold date_text, str_year. destruct (Z.leb_spec 1 y); [|lia]. destruct (Z.leb_spec y 9999); [|lia]. cbn [andb str_to_datetime].
  rewrite drop_zeros_big by lia. destruct (four_digits_ok y) as (A1 & A2 & A3); [lia|]. destruct (month_text m M) as (B1 & B2 & B3).
  destruct (two_digits_ok d) as (C1 & C2); [lia|].
  rewrite (written_strptime _ (y, m, d)); [reflexivity| | |].
  - exists (four_digits y), (drop_zeros (two_digits m)), (two_digits d). do 9 (split; [solve [auto]|] || idtac). all: try (right; reflexivity); auto.
  - apply calendar_valid. unfold valid. lia.
  - unfold year_ok. cbn. lia.
Qed.

Theorem frac_ok y m s e ds de : 1 <= m <= 12 -> 1 <= ds -> ds <= de -> de <= days_in_month y m ->
  match s with Some t => day_of_month y m ds t | None => ds = 1 /\ 1000 <= y <= 9999 end ->
  match e with Some t => day_of_month y m de t | None => de = days_in_month y m /\ 1000 <= y <= 9999 end ->
  frac_of_month y m s e = Ok (inject_Z (de - ds + 1) / inject_Z (days_in_month y m))%Q.
Proof.
  intros M D1 D2 D3 Hs He. unfold frac_of_month. destruct (Z.leb_spec 1 m); [|lia]. destruct (Z.leb_spec m 12); [|lia]. cbn [andb negb].
  assert (Es : exists t, match s with Some t => Ok t | None => str_to_datetime (date_text y m "01") end = Ok t /\ day_of_month y m ds t).
  { destruct s as [t|]; [eauto|]. destruct Hs as [-> Y]. exists (mkMoment (y, m, 1) 0). split; [apply (default_day y m 1); lia|split; reflexivity]. }
  assert (Ee : exists t, match e with Some t => Ok t | None => str_to_datetime (date_text y m (two_digits (days_in_month y m))) end = Ok t /\ day_of_month y m de t).
  { destruct e as [t|]; [eauto|]. destruct He as [-> Y]. exists (mkMoment (y, m, days_in_month y m) 0). split; [apply default_day; lia|split; reflexivity]. }
  destruct Es as (ts & -> & Ds & Us). destruct Ee as (te & -> & De & Ue). cbn [bind]. rewrite Ds, De. cbn [fst snd]. rewrite Z.eqb_refl. cbn [negb].
  rewrite days_midnight by (unfold midnight in *; congruence). rewrite Ds, De, ordinal_month. reflexivity.
Qed.

(** ** Ranges *)
Lemma ordinal_after a b k : calendar_date a -> days_after k a b -> ordinal b = ordinal a + Z.of_nat k.
Proof. intros C H. destruct (days_after_ord k a b C H) as [_ E]. destruct a as [[? ?] ?], b as [[? ?] ?]. symmetry. exact E. Qed.
Lemma ordinal_inv a : calendar_date a -> ord2ymd (ordinal a) = a.
Proof. destruct a as [[y m] d]. intros C. apply ord2ymd_inv, calendar_valid, C. Qed.
Lemma add_days_after a k : calendar_date (m_date a) -> days_after k (m_date a) (m_date (add_days a (Z.of_nat k))).
Proof. intros C. cbn. pose proof (ord2ymd_shift (ordinal (m_date a)) k) as H. rewrite ordinal_inv in H by exact C. exact H. Qed.

Lemma date_range_nth s e k : nth_error (date_range s e) k = if Z.of_nat k <? timedelta_days e s then Some (add_days s (Z.of_nat k)) else None.
Proof.
  unfold date_range. destruct (Z.ltb_spec (Z.of_nat k) (timedelta_days e s)) as [L|L].
  - erewrite map_nth_error; [reflexivity|]. rewrite nth_error_nth' with (d := 0%nat) by (rewrite seq_length; lia). rewrite seq_nth by lia. reflexivity.
  - apply nth_error_None. rewrite map_length, seq_length. lia.
Qed.
