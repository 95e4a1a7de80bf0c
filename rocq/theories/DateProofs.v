(** Date texts: proofs for C40. *)
From Verif Require Import Base PyStr Dates DateSpec QLib StrLib CalProofs Grid WktProofs.
Open Scope string_scope.
Open Scope Z_scope.

(** ** Characters *)
Lemma digit_some c x : digit c = Some x <-> is_digit c /\ x = Z.of_nat (nat_of_ascii c) - 48.
Proof.
  unfold digit, is_digit.
  destruct (Nat.leb_spec 48 (nat_of_ascii c)), (Nat.leb_spec (nat_of_ascii c) 57); cbn [andb];
    split; try (intros [? ?]; exfalso; lia); try discriminate.
  - intros [= <-]. split; [lia|reflexivity].
  - intros [? ->]. reflexivity.
Qed.
Lemma digit_range c x : digit c = Some x -> 0 <= x <= 9.
Proof. intros H. apply digit_some in H as [[A B] ->]. lia. Qed.
Lemma is_digit_some c : is_digit c -> exists x, digit c = Some x /\ x = Z.of_nat (nat_of_ascii c) - 48 /\ 0 <= x <= 9.
Proof.
  intros H. exists (Z.of_nat (nat_of_ascii c) - 48). split; [apply digit_some; auto|]. split; [reflexivity|].
  unfold is_digit in H. lia.
Qed.
Lemma digit_char_ok z : 0 <= z <= 9 -> digit (digit_char z) = Some z.
Proof.
  intros H. assert (I : In z [0;1;2;3;4;5;6;7;8;9]) by (cbn; lia). cbn in I.
  repeat (destruct I as [<-|I]; [reflexivity|]). destruct I.
Qed.
Lemma digit_char_digit z : 0 <= z <= 9 -> is_digit (digit_char z).
Proof. intros H. apply digit_char_ok in H. apply digit_some in H. tauto. Qed.
Lemma digits_cons c s : all_digits (String c s) <-> is_digit c /\ all_digits s.
Proof.
  unfold all_digits. cbn. split.
  - intros H. split; [apply H; auto|intros; apply H; auto].
  - intros [A B] d [<-|I]; auto.
Qed.
Lemma digits_nil : all_digits "".
Proof. intros c []. Qed.
Lemma digits_app a b : all_digits (a ++ b) <-> all_digits a /\ all_digits b.
Proof.
  unfold all_digits. rewrite chars_app. split.
  - intros H. split; intros; apply H, in_or_app; auto.
  - intros [A B] c I. apply in_app_or in I as [I|I]; auto.
Qed.
Lemma digits2_some a b x : digits2 a b = Some x <-> is_digit a /\ is_digit b /\ x = value (String a (String b "")).
Proof.
  unfold digits2, value. cbn [value_from]. split.
  - destruct (digit a) eqn:E; [|discriminate]. destruct (digit b) eqn:F; [|discriminate].
    apply digit_some in E as [A ->]. apply digit_some in F as [B ->]. intros H.
    assert (E : x = 10 * (Z.of_nat (nat_of_ascii a) - 48) + (Z.of_nat (nat_of_ascii b) - 48)) by congruence.
    split; [auto|]. split; [auto|]. lia.
  - intros (A & B & ->). apply is_digit_some in A as (u & -> & -> & _). apply is_digit_some in B as (v & -> & -> & _).
    f_equal.
Qed.

(** ** strptime *)
Lemma length_1 s : String.length s = 1%nat -> exists c, s = String c "".
Proof. destruct s as [|c [|]]; cbn; try discriminate; eauto. Qed.
Lemma length_2 s : String.length s = 2%nat -> exists c d, s = String c (String d "").
Proof. destruct s as [|c [|d [|]]]; cbn; try discriminate; eauto. Qed.
Lemma length_4 s : String.length s = 4%nat -> exists a b c d, s = String a (String b (String c (String d ""))).
Proof. destruct s as [|a [|b [|c [|d [|]]]]]; cbn; try discriminate; eauto 6. Qed.

Lemma digit_not_dash c : is_digit c -> Ascii.eqb c "-" = false.
Proof. intros H. destruct (Ascii.eqb_spec c "-"); auto. subst. unfold is_digit in H. cbn in H. lia. Qed.
Lemma digit_not_space c : is_digit c -> Ascii.eqb c " " = false.
Proof. intros H. destruct (Ascii.eqb_spec c " "); auto. subst. unfold is_digit in H. cbn in H. lia. Qed.

Lemma scan_month_ok ms r m : all_digits ms -> (String.length ms = 1 \/ String.length ms = 2)%nat ->
  value ms = m -> 1 <= m <= 12 -> r <> "" -> scan_month (ms ++ "-" ++ r) = Some (m, r).
Proof.
  intros D [L|L] V R N.
  - apply length_1 in L as (a & ->). destruct r as [|c r]; [congruence|].
    cbn [append scan_month]. cbn [Ascii.eqb Bool.eqb]. apply digits_cons in D as [D _].
    destruct (is_digit_some a D) as (x & E & Ex & _). rewrite E.
    assert (Xm : x = m) by (rewrite <- V; unfold value; cbn [value_from]; lia). rewrite Xm.
    destruct (Z.leb_spec 1 m); [reflexivity|lia].
  - apply length_2 in L as (a & b & ->). cbn [append scan_month].
    apply digits_cons in D as [Da D]. apply digits_cons in D as [Db _]. rewrite (digit_not_dash b Db).
    cbn [Ascii.eqb Bool.eqb]. rewrite (proj2 (digits2_some a b m)) by auto.
    destruct (Z.leb_spec 1 m), (Z.leb_spec m 12); try lia. reflexivity.
Qed.
Lemma scan_day_ok ds d : all_digits ds -> (String.length ds = 1 \/ String.length ds = 2)%nat ->
  value ds = d -> 1 <= d <= 31 -> scan_day ds = Some d.
Proof.
  intros D [L|L] V R.
  - apply length_1 in L as (a & ->). cbn [scan_day]. apply digits_cons in D as [D _].
    destruct (is_digit_some a D) as (x & E & Ex & _). rewrite E.
    assert (Xm : x = d) by (rewrite <- V; unfold value; cbn [value_from]; lia). rewrite Xm.
    destruct (Z.leb_spec 1 d); [reflexivity|lia].
  - apply length_2 in L as (a & b & ->). cbn [scan_day].
    apply digits_cons in D as [Da D]. apply digits_cons in D as [Db _]. rewrite (digit_not_space a Da).
    rewrite (proj2 (digits2_some a b d)) by auto.
    destruct (Z.leb_spec 1 d), (Z.leb_spec d 31); try lia. reflexivity.
Qed.
Lemma scan_day_blank ds d : all_digits ds -> String.length ds = 1%nat -> value ds = d -> 1 <= d ->
  scan_day (" " ++ ds) = Some d.
Proof.
  intros D L V R. apply length_1 in L as (a & ->). cbn [append scan_day Ascii.eqb Bool.eqb].
  apply digits_cons in D as [D _]. destruct (is_digit_some a D) as (x & E & Ex & _). rewrite E.
  assert (Xm : x = d) by (rewrite <- V; unfold value; cbn [value_from]; lia). rewrite Xm.
  destruct (Z.leb_spec 1 d); [reflexivity|lia].
Qed.
Lemma calendar_ranges y m d : calendar_date (y, m, d) -> 1 <= m <= 12 /\ 1 <= d <= 31.
Proof.
  intros C. apply calendar_valid in C as [M D]. split; auto. rewrite dim_eq in D.
  months m M; destruct (is_leap y); zcomp; lia.
Qed.
Lemma strptime_year ys y r : all_digits ys -> String.length ys = 4%nat -> value ys = y ->
  strptime (ys ++ "-" ++ r) =
  match scan_month r with
  | Some (m, s'') => match scan_day s'' with
                     | Some day => if real_date y m day then Some (y, m, day) else None
                     | None => None end
  | None => None
  end.
Proof.
  intros D L V. apply length_4 in L as (a & b & c & d & ->). cbn [append].
  apply digits_cons in D as [Da D]. apply digits_cons in D as [Db D]. apply digits_cons in D as [Dc D].
  apply digits_cons in D as [Dd _]. unfold strptime.
  rewrite (proj2 (digits2_some a b _)) by auto. rewrite (proj2 (digits2_some c d _)) by auto.
  cbn [Ascii.eqb Bool.eqb].
  replace (100 * value (String a (String b "")) + value (String c (String d ""))) with y; [reflexivity|].
  rewrite <- V. unfold value. cbn [value_from]. lia.
Qed.
Lemma written_strptime s date : written_as s date -> calendar_date date -> year_ok date -> strptime s = Some date.
Proof.
  destruct date as [[y m] d]. intros (ys & ms & ds & -> & Dy & Dm & Dd & Ly & Lm & Ld & Vy & Vm & Vd) C Y.
  destruct (calendar_ranges y m d C) as [M R].
  rewrite (strptime_year ys y) by auto.
  rewrite (scan_month_ok ms ds m); auto; [|intros ->; cbn in Ld; lia].
  rewrite (scan_day_ok ds d) by auto. rewrite (proj2 (real_date_spec y m d)) by auto. reflexivity.
Qed.
Lemma blank_strptime s date : written_with_blank s date -> calendar_date date -> year_ok date -> strptime s = Some date.
Proof.
  destruct date as [[y m] d]. intros (ys & ms & ds & -> & Dy & Dm & Dd & Ly & Lm & Ld & Vy & Vm & Vd) C Y.
  destruct (calendar_ranges y m d C) as [M R].
  rewrite (strptime_year ys y) by auto. change ("- " ++ ds) with ("-" ++ (" " ++ ds)).
  rewrite (scan_month_ok ms (" " ++ ds) m); auto; [|discriminate].
  rewrite (scan_day_blank ds d); auto; [|lia]. rewrite (proj2 (real_date_spec y m d)) by auto. reflexivity.
Qed.

Lemma scan_month_inv s m r : scan_month s = Some (m, r) -> exists ms, s = ms ++ "-" ++ r /\ all_digits ms /\
  (String.length ms = 1 \/ String.length ms = 2)%nat /\ value ms = m.
Proof.
  destruct s as [|a [|b [|c s]]]; try discriminate. cbn [scan_month].
  destruct (Ascii.eqb_spec b "-").
  - subst. destruct (digit a) as [x|] eqn:E; [|discriminate]. destruct (1 <=? x); [|discriminate]. intros [= <- <-].
    apply digit_some in E as [D ->]. exists (String a ""). split; [reflexivity|]. split; [apply digits_cons; auto using digits_nil|].
    split; [auto|]. unfold value. cbn [value_from]. lia.
  - destruct (Ascii.eqb_spec c "-"); [|discriminate]. subst. destruct (digits2 a b) as [x|] eqn:E; [|discriminate].
    destruct ((1 <=? x) && (x <=? 12)); [|discriminate]. intros [= <- <-]. apply digits2_some in E as (A & B & ->).
    exists (String a (String b "")). split; [reflexivity|]. split; [|auto].
    apply digits_cons; split; auto. apply digits_cons; auto using digits_nil.
Qed.
Lemma scan_day_inv s d : scan_day s = Some d ->
  (all_digits s /\ (String.length s = 1 \/ String.length s = 2)%nat /\ value s = d) \/
  (exists ds, s = " " ++ ds /\ all_digits ds /\ String.length ds = 1%nat /\ value ds = d).
Proof.
  destruct s as [|a [|b [|]]]; try discriminate; cbn [scan_day].
  - destruct (digit a) as [x|] eqn:E; [|discriminate]. destruct (1 <=? x); [|discriminate]. intros [= <-].
    apply digit_some in E as [D ->]. left. split; [apply digits_cons; auto using digits_nil|]. split; [auto|].
    unfold value. cbn [value_from]. lia.
  - destruct (Ascii.eqb_spec a " ").
    + subst. destruct (digit b) as [x|] eqn:E; [|discriminate]. destruct (1 <=? x); [|discriminate]. intros [= <-].
      apply digit_some in E as [D ->]. right. exists (String b ""). split; [reflexivity|].
      split; [apply digits_cons; auto using digits_nil|]. split; [auto|]. unfold value. cbn [value_from]. lia.
    + destruct (digits2 a b) as [x|] eqn:E; [|discriminate]. destruct ((1 <=? x) && (x <=? 31)); [|discriminate].
      intros [= <-]. apply digits2_some in E as (A & B & ->). left. split; [|auto].
      apply digits_cons; split; auto. apply digits_cons; auto using digits_nil.
Qed.
Lemma strptime_inv s date : strptime s = Some date ->
  (written_as s date \/ written_with_blank s date) /\ calendar_date date /\ year_ok date.
Proof.
  unfold strptime. destruct s as [|a [|b [|c [|d [|e s]]]]]; try discriminate.
  destruct (digits2 a b) as [h|] eqn:E1; [|discriminate]. destruct (digits2 c d) as [l|] eqn:E2; [|discriminate].
  destruct (Ascii.eqb_spec e "-"); [|discriminate]. subst e.
  destruct (scan_month s) as [[m r]|] eqn:E3; [|discriminate]. destruct (scan_day r) as [dd|] eqn:E4; [|discriminate].
  remember (100 * h + l) as yy eqn:Ey.
  destruct (real_date yy m dd) eqn:E5; [|discriminate]. intros [= <-].
  apply digits2_some in E1 as (A & B & ->). apply digits2_some in E2 as (C & D & ->).
  apply scan_month_inv in E3 as (ms & -> & Dm & Lm & Vm).
  assert (Dy : all_digits (String a (String b (String c (String d ""))))).
  { repeat (apply digits_cons; split; auto). apply digits_nil. }
  split; [|apply real_date_spec; exact E5].
  assert (V : value (String a (String b (String c (String d "")))) = yy).
  { rewrite Ey. unfold value. cbn [value_from]. lia. }
  apply scan_day_inv in E4 as [(Dd & Ld & Vd)|(ds & -> & Dd & Ld & Vd)].
  - left. exists (String a (String b (String c (String d "")))), ms, r. repeat (split; [first [assumption|reflexivity]|]); assumption.
  - right. exists (String a (String b (String c (String d "")))), ms, ds. repeat (split; [first [assumption|reflexivity]|]); assumption.
Qed.

(** ** strftime *)
Lemma two_digits_ok z : 0 <= z <= 99 -> all_digits (two_digits z) /\ value (two_digits z) = z.
Proof.
  intros H. assert (A : 0 <= z / 10 <= 9) by (Z.to_euclidean_division_equations; lia).
  assert (B : 0 <= z mod 10 <= 9) by (Z.to_euclidean_division_equations; lia).
  unfold two_digits. split.
  - repeat (apply digits_cons; split; [apply digit_char_digit; auto|]). apply digits_nil.
  - unfold value. cbn [value_from]. pose proof (digit_char_ok _ A) as X. pose proof (digit_char_ok _ B) as Y.
    apply digit_some in X as [_ X]. apply digit_some in Y as [_ Y]. rewrite <- X, <- Y.
    pose proof (Z.div_mod z 10 ltac:(lia)). lia.
Qed.
Lemma value_app a b : value (a ++ b) = value_from (value a) b.
Proof.
  unfold value. generalize 0. induction a as [|c a IH]; intros k; [reflexivity|]. cbn. apply IH.
Qed.
Lemma four_digits_ok z : 0 <= z <= 9999 -> all_digits (four_digits z) /\ value (four_digits z) = z /\ String.length (four_digits z) = 4%nat.
Proof.
  intros H. destruct (two_digits_ok (z / 100)) as [A V]; [Z.to_euclidean_division_equations; lia|].
  destruct (two_digits_ok (z mod 100)) as [B W]; [Z.to_euclidean_division_equations; lia|].
  unfold four_digits. split; [apply digits_app; auto|]. split; [|reflexivity].
  rewrite value_app, V. unfold two_digits in *. unfold value in W. cbn [value_from] in *.
  pose proof (Z.div_mod z 100 ltac:(lia)). lia.
Qed.
Lemma drop_zeros_length s : (String.length (drop_zeros s) <= String.length s)%nat.
Proof. induction s as [|c s IH]; cbn; [lia|]. destruct (Ascii.eqb c "0"); cbn; lia. Qed.
Lemma leading_digit z : 0 <= z <= 9999 -> exists s, four_digits z = String (digit_char (z / 1000)) s /\ String.length s = 3%nat.
Proof.
  intros H. unfold four_digits, two_digits. cbn [append]. rewrite Z.div_div by lia. eexists. split; reflexivity.
Qed.
Lemma drop_zeros_big z : 1000 <= z <= 9999 -> drop_zeros (four_digits z) = four_digits z.
Proof.
  intros H. destruct (leading_digit z ltac:(lia)) as (s & -> & _). cbn [drop_zeros].
  assert (A : 1 <= z / 1000 <= 9) by (Z.to_euclidean_division_equations; lia).
  destruct (Ascii.eqb_spec (digit_char (z / 1000)) "0") as [E|E]; auto.
  pose proof (digit_char_ok (z / 1000) ltac:(lia)) as D. rewrite E in D. cbn in D. injection D as D. lia.
Qed.
Lemma drop_zeros_small z : 0 <= z < 1000 -> (String.length (drop_zeros (four_digits z)) < 4)%nat.
Proof.
  intros H. destruct (leading_digit z ltac:(lia)) as (s & -> & L).
  rewrite (Z.div_small z 1000) by lia. change (digit_char 0) with "0"%char. cbn [drop_zeros Ascii.eqb Bool.eqb]. pose proof (drop_zeros_length s). lia.
Qed.
Definition four_figures (pad : bool) (date : Z * Z * Z) : Prop := pad = true \/ 1000 <= fst (fst date).
Lemma strftime_iso pad date : calendar_date date -> year_ok date -> four_figures pad date ->
  iso_text (strftime pad date) date.
Proof.
  destruct date as [[y m] d]. intros C Y F. unfold year_ok, four_figures in *. cbn [fst] in *.
  destruct (calendar_ranges y m d C) as [M D].
  destruct (four_digits_ok y ltac:(lia)) as (A & V & L).
  destruct (two_digits_ok m ltac:(lia)) as [Am Vm]. destruct (two_digits_ok d ltac:(lia)) as [Ad Vd].
  assert (E : (if pad then four_digits y else drop_zeros (four_digits y)) = four_digits y).
  { destruct pad; auto. destruct F as [F|F]; [discriminate|]. apply drop_zeros_big. lia. }
  unfold strftime. rewrite E. split; [|reflexivity].
  exists (four_digits y), (two_digits m), (two_digits d). repeat (split; [first [assumption|reflexivity|right; reflexivity]|]); assumption.
Qed.
Lemma strftime_length pad date : calendar_date date -> year_ok date ->
  String.length (strftime pad date) = 10%nat -> four_figures pad date.
Proof.
  destruct date as [[y m] d]. intros C Y L. unfold year_ok, four_figures in *. cbn [fst] in *.
  destruct pad; [auto|]. right. destruct (Z.le_gt_cases 1000 y); auto.
  pose proof (drop_zeros_small y ltac:(lia)). unfold strftime in L. rewrite !length_app_s in L. change (String.length (two_digits m)) with 2%nat in L. change (String.length (two_digits d)) with 2%nat in L. change (String.length "-") with 1%nat in L. lia.
Qed.

(** ** Upper case *)
Definition lower_letter (c : ascii) : bool := ((97 <=? nat_of_ascii c) && (nat_of_ascii c <=? 122))%nat.
Definition upper_letter (c : ascii) : bool := ((65 <=? nat_of_ascii c) && (nat_of_ascii c <=? 90))%nat.
Lemma upper_char_id c : lower_letter c = false -> upper_char c = c.
Proof. unfold upper_char, lower_letter. intros ->. reflexivity. Qed.
Lemma upper_char_inv c : upper_letter (upper_char c) = false -> upper_char c = c.
Proof.
  unfold upper_char. destruct ((97 <=? nat_of_ascii c) && (nat_of_ascii c <=? 122))%nat eqn:E; auto.
  apply andb_true_iff in E as [A B]. apply Nat.leb_le in A, B. unfold upper_letter.
  rewrite nat_ascii_embedding by lia.
  destruct (Nat.leb_spec 65 (nat_of_ascii c - 32)); [|lia]. destruct (Nat.leb_spec (nat_of_ascii c - 32) 90); [|lia]. discriminate.
Qed.
Lemma upper_id s : (forall c, In c (list_ascii_of_string s) -> lower_letter c = false) -> upper s = s.
Proof.
  induction s as [|c s IH]; intros H; [reflexivity|]. cbn. f_equal.
  - apply upper_char_id, H. left; auto.
  - apply IH. intros; apply H. right; auto.
Qed.
Lemma upper_inv s : (forall c, In c (list_ascii_of_string (upper s)) -> upper_letter c = false) -> upper s = s.
Proof.
  induction s as [|c s IH]; intros H; [reflexivity|]. cbn. f_equal.
  - apply upper_char_inv, H. left; auto.
  - apply IH. intros; apply H. right; auto.
Qed.
Lemma digit_plain c : is_digit c -> lower_letter c = false /\ upper_letter c = false.
Proof.
  unfold is_digit, lower_letter, upper_letter. intros H.
  destruct (Nat.leb_spec 97 (nat_of_ascii c)); [lia|]. destruct (Nat.leb_spec 65 (nat_of_ascii c)); [lia|]. auto.
Qed.
Definition date_char (c : ascii) : Prop := is_digit c \/ c = "-"%char \/ c = " "%char.
Lemma date_char_plain c : date_char c -> lower_letter c = false /\ upper_letter c = false.
Proof. intros [H|[-> | ->]]; auto. apply digit_plain; auto. Qed.
Lemma date_chars s date : written_as s date \/ written_with_blank s date ->
  forall c, In c (list_ascii_of_string s) -> date_char c.
Proof.
  destruct date as [[y m] d].
  intros [(ys & ms & ds & -> & Dy & Dm & Dd & _)|(ys & ms & ds & -> & Dy & Dm & Dd & _)] c I;
    rewrite !chars_app in I; unfold date_char;
    repeat (apply in_app_or in I as [I|I]); cbn in I; auto; intuition.
Qed.

(** ** parse_datetime on dates *)
Lemma parse_date pad now s date : written_as s date \/ written_with_blank s date -> calendar_date date -> year_ok date ->
  parse_datetime pad now s = Ok (strftime pad date).
Proof.
  intros W C Y. unfold parse_datetime.
  rewrite upper_id by (intros c I; apply date_char_plain; apply (date_chars s date W c I)).
  destruct W as [W|W]; [rewrite (written_strptime s date) by auto|rewrite (blank_strptime s date) by auto]; reflexivity.
Qed.
(** The current date. *)
Definition today_of (now : Z) : Z * Z * Z := ord2ymd (now / us_per_day).
Lemma parse_shape pad now s s' : year_ok (today_of now) -> parse_datetime pad now s = Ok s' ->
  exists date, s' = strftime pad date /\ calendar_date date /\ year_ok date.
Proof.
  intros T. unfold parse_datetime. cbn zeta. destruct (strptime (upper s)) as [date|] eqn:E.
  - intros [= <-]. exists date. split; auto. apply strptime_inv in E. tauto.
  - assert (SH : forall x r, (date <- shifted_today now x ;; Ok (strftime pad date)) = Ok r ->
        exists date, r = strftime pad date /\ calendar_date date /\ year_ok date).
    { intros x r. unfold shifted_today. destruct x; cbn [bind]; try discriminate.
      set (us := round_half_even (q * inject_Z us_per_day)).
      destruct ((999999999 <? us / us_per_day) || (us / us_per_day <? -999999999)); [discriminate|].
      destruct (Z.ltb_spec ((now + us) / us_per_day) 1); [discriminate|].
      destruct (Z.ltb_spec 3652059 ((now + us) / us_per_day)); [discriminate|]. cbn [orb bind].
      intros [= <-]. eexists. split; [reflexivity|]. split; [apply ord2ymd_calendar|apply ord2ymd_year; lia]. }
    destruct (String.eqb (strip (upper s)) "TODAY").
    + intros [= <-]. exists (today_of now). split; [reflexivity|]. split; [apply ord2ymd_calendar|exact T].
    + destruct (negb (contains "TODAY" (upper s))); [discriminate|].
      destruct (contains "+" (upper s)).
      * destruct (py_nth (split "+" (upper s)) 1); [|discriminate]. cbn [bind].
        destruct (py_float (strip a)); [|discriminate]. apply SH.
      * destruct (contains "-" (upper s)); [|discriminate].
        destruct (py_nth (split "-" (upper s)) 1); [|discriminate]. cbn [bind].
        destruct (py_float (strip a)); [|discriminate]. apply SH.
Qed.
Lemma parse_idempotent pad now now' s s' : year_ok (today_of now) -> parse_datetime pad now s = Ok s' ->
  String.length s' = 10%nat -> parse_datetime pad now' s' = Ok s'.
Proof.
  intros T P L. destruct (parse_shape _ _ _ _ T P) as (date & -> & C & Y).
  apply parse_date; auto. left. apply (strftime_iso pad date C Y). apply strftime_length; auto.
Qed.
Lemma parse_only pad now s s' : parse_datetime pad now s = Ok s' ->
  (exists date, (written_as s date \/ written_with_blank s date) /\ calendar_date date /\ year_ok date /\ s' = strftime pad date) \/
  contains "TODAY" (upper s) = true.
Proof.
  unfold parse_datetime. cbn zeta. destruct (strptime (upper s)) as [date|] eqn:E.
  - intros [= <-]. apply strptime_inv in E as (W & C & Y). left. exists date.
    assert (U : upper s = s).
    { apply upper_inv. intros c I. apply date_char_plain. apply (date_chars _ _ W c I). }
    rewrite U in W. auto.
  - destruct (String.eqb_spec (strip (upper s)) "TODAY") as [S|S].
    + intros _. right. assert (H : exists a b, upper s = a ++ strip (upper s) ++ b).
      { clear. generalize (upper s). intros u. unfold strip.
        assert (L : exists a, u = a ++ lstrip u).
        { induction u as [|c u (a & IH)]; [exists ""; reflexivity|]. cbn. destruct (is_space c).
          - exists (String c a). cbn. f_equal. exact IH.
          - exists "". reflexivity. }
        assert (R : forall v, exists b, v = rstrip v ++ b).
        { induction v as [|c v (b & IH)]; [exists ""; reflexivity|]. cbn. destruct (rstrip v) eqn:Q.
          - destruct (is_space c); [exists (String c v); reflexivity|]. exists b. cbn in *. congruence.
          - exists b. cbn in *. congruence. }
        destruct L as (a & L). destruct (R (lstrip u)) as (b & R'). exists a, b. rewrite <- R'. exact L. }
      destruct H as (a & b & H). rewrite S in H. rewrite H. clear.
      unfold contains. destruct (cut "TODAY" (a ++ "TODAY" ++ b)) as [|] eqn:E; auto. exfalso.
      revert E. induction a as [|c a IH]; [discriminate|].
      change (String c a ++ "TODAY" ++ b) with (String c (a ++ "TODAY" ++ b)). cbn [cut].
      destruct (strip_prefix "TODAY" (String c (a ++ "TODAY" ++ b))); [discriminate|].
      destruct (cut "TODAY" (a ++ "TODAY" ++ b)) as [[]|]; [discriminate|]. exact IH.
    + destruct (contains "TODAY" (upper s)); [auto|discriminate].
Qed.

(** ** TODAY plus or minus a number of days *)
Lemma blanks_free c s : c <> " "%char -> blanks s -> free c s.
Proof. intros N B I. apply B in I. congruence. Qed.
Lemma digits_free c s : ~ is_digit c -> all_digits s -> free c s.
Proof. intros N B I. apply B in I. contradiction. Qed.
Lemma digit_no_space c : is_digit c -> is_space c = false.
Proof.
  unfold is_digit, is_space. intros [A B].
  destruct (Nat.leb_spec (nat_of_ascii c) 13); [lia|]. destruct (Nat.leb_spec (nat_of_ascii c) 32); [lia|].
  rewrite !andb_false_r. reflexivity.
Qed.
Lemma lstrip_blanks b s : blanks b -> lstrip (b ++ s) = lstrip s.
Proof.
  induction b as [|c b IH]; intros H; [reflexivity|]. cbn [append lstrip].
  rewrite (H c) by (left; auto). cbn. apply IH. intros d I. apply H. right; auto.
Qed.
Lemma rstrip_blanks b : blanks b -> rstrip b = "".
Proof.
  induction b as [|c b IH]; intros H; [reflexivity|]. cbn [rstrip].
  rewrite IH by (intros d I; apply H; right; auto). rewrite (H c) by (left; auto). reflexivity.
Qed.
Lemma rstrip_digits s b : all_digits s -> blanks b -> rstrip (s ++ b) = s.
Proof.
  induction s as [|c s IH]; intros D B; [apply rstrip_blanks; auto|].
  apply digits_cons in D as [Dc D]. cbn [append rstrip]. rewrite IH by auto.
  destruct s; [|reflexivity]. rewrite (digit_no_space c Dc). reflexivity.
Qed.
Lemma strip_digits b s b' : blanks b -> all_digits s -> s <> "" -> blanks b' -> strip (b ++ s ++ b') = s.
Proof.
  intros B D N B'. unfold strip. rewrite lstrip_blanks by auto.
  destruct s as [|c s]; [congruence|]. cbn [append lstrip].
  rewrite (digit_no_space c) by (apply D; left; auto).
  change (String c (s ++ b')) with (String c s ++ b'). apply rstrip_digits; auto.
Qed.
Lemma blanks_nil : blanks "".
Proof. intros c []. Qed.

Lemma scan_digits_all s : forall acc n, all_digits s -> scan_digits s acc n = (value_from acc s, n + Z.of_nat (String.length s), "").
Proof.
  induction s as [|c s IH]; intros acc n D.
  - cbn. do 2 f_equal. lia.
  - apply digits_cons in D as [Dc D]. cbn [scan_digits]. destruct (is_digit_some c Dc) as (x & E & -> & _).
    rewrite E, IH by auto. cbn [value_from String.length]. do 2 f_equal. lia.
Qed.
Lemma lower_digits s : all_digits s -> lower s = s.
Proof.
  induction s as [|c s IH]; intros D; [reflexivity|]. apply digits_cons in D as [Dc D]. cbn. f_equal; [|apply IH; auto].
  unfold lower_char. unfold is_digit in Dc. destruct (Nat.leb_spec 65 (nat_of_ascii c)); [lia|reflexivity].
Qed.
Lemma float_digits s : all_digits s -> s <> "" -> py_float s = Some (FNum (inject_Z (value s))).
Proof.
  intros D N. unfold py_float.
  assert (S : strip s = s).
  { pose proof (strip_digits "" s "" blanks_nil D N blanks_nil) as H. rewrite app_nil_s in H. exact H. }
  rewrite S. destruct s as [|c s]; [congruence|].
  assert (Dc : is_digit c) by (apply D; left; auto).
  assert (SG : scan_sign (String c s) = (false, String c s)).
  { cbn [scan_sign]. rewrite digit_not_dash by auto. destruct (Ascii.eqb_spec c "+"); auto. subst.
    unfold is_digit in Dc. cbn in Dc. lia. }
  rewrite SG, lower_digits by auto.
  assert (X : forall t d, ~ is_digit d -> String.eqb (String c s) (String d t) = false).
  { intros t d H. apply String.eqb_neq. intros [= -> _]. contradiction. }
  rewrite !X by (unfold is_digit; cbn; lia). cbn [orb].
  unfold scan_number. rewrite scan_digits_all by auto.
  destruct (Z.eqb_spec (0 + Z.of_nat (String.length (String c s))) 0); [cbn [String.length] in *; lia|].
  unfold scale. cbn [Z.opp Z.ltb Z.compare]. rewrite Z.mul_1_r. reflexivity.
Qed.

Lemma round_int q z : (q == inject_Z z)%Q -> round_half_even q = z.
Proof.
  intros E. unfold round_half_even. rewrite (qfloor_eq q z E).
  destruct (qltb_spec (q - inject_Z z) (1#2)) as [L|L]; auto. exfalso. lra.
Qed.
Lemma round_days n : round_half_even (inject_Z n * inject_Z us_per_day) = n * us_per_day.
Proof. apply round_int. rewrite <- inject_Z_mult. reflexivity. Qed.

Lemma shift_days now n : year_ok (today_of now) ->
  shifted_today now (FNum (inject_Z n)) =
    let k := now / us_per_day + n in
    if (k <? 1) || (3652059 <? k) then Err OverflowError else Ok (ord2ymd k).
Proof.
  intros T. apply ord2ymd_year in T. unfold shifted_today. rewrite round_days.
  assert (P : 0 < us_per_day) by reflexivity.
  rewrite Z.div_mul by lia. rewrite Z.div_add by lia. cbn zeta.
  destruct (Z.ltb_spec 999999999 n); cbn [orb].
  - destruct (Z.ltb_spec 3652059 (now / us_per_day + n)); [|lia]. rewrite orb_true_r. reflexivity.
  - destruct (Z.ltb_spec n (-999999999)); [|reflexivity].
    destruct (Z.ltb_spec (now / us_per_day + n) 1); [reflexivity|lia].
Qed.

Lemma contains_mid a sub b : sub <> "" -> contains sub (a ++ sub ++ b) = true.
Proof.
  intros N. unfold contains. destruct (cut sub (a ++ sub ++ b)) eqn:E; auto. exfalso.
  revert E. induction a as [|c a IH].
  - cbn [append]. destruct sub as [|c sub]; [congruence|]. rewrite cut_here. discriminate.
  - change (String c a ++ sub ++ b) with (String c (a ++ sub ++ b)). cbn [cut].
    destruct (strip_prefix sub (String c (a ++ sub ++ b))); [discriminate|].
    destruct (cut sub (a ++ sub ++ b)) as [[]|]; [discriminate|]. exact IH.
Qed.
Lemma strip_keeps c s : is_space c = false -> In c (list_ascii_of_string s) -> In c (list_ascii_of_string (strip s)).
Proof.
  intros N I. unfold strip.
  assert (L : In c (list_ascii_of_string (lstrip s))).
  { induction s as [|d s IH]; [exact I|]. cbn [lstrip]. destruct (is_space d) eqn:E; [|exact I].
    apply IH. destruct I as [->|I]; [congruence|exact I]. }
  revert L. generalize (lstrip s). clear I s. induction s as [|d s IH]; [intros []|].
  cbn [rstrip]. intros [->|I].
  - destruct (rstrip s); [rewrite N|]; left; reflexivity.
  - specialize (IH I). destruct (rstrip s); [destruct IH|]. right. exact IH.
Qed.

Lemma strptime_first c s : digit c = None -> strptime (String c s) = None.
Proof.
  intros H. unfold strptime. destruct s as [|b [|d [|e [|f s]]]]; auto. unfold digits2. rewrite H. reflexivity.
Qed.

Lemma relative_upper s sg n : (sg = "+"%char \/ sg = "-"%char) -> relative_text s sg n -> upper s = s.
Proof.
  intros SG (b0 & b1 & b2 & ds & b3 & -> & B0 & B1 & B2 & B3 & D & N & V). apply upper_id.
  intros c I. rewrite !chars_app in I.
  assert (BL : forall b, blanks b -> In c (list_ascii_of_string b) -> lower_letter c = false).
  { intros b B J. rewrite (B c J). reflexivity. }
  repeat (apply in_app_or in I as [I|I]); eauto.
  - cbn in I. repeat (destruct I as [<-|I]; [reflexivity|]). destruct I.
  - destruct I as [<-|[]]. destruct SG as [-> | ->]; reflexivity.
  - apply D in I. apply digit_plain; auto.
Qed.

(** The text before and after the sign. *)
Lemma relative_parts s sg n : (sg = "+"%char \/ sg = "-"%char) -> relative_text s sg n ->
  strptime s = None /\ String.eqb (strip s) "TODAY" = false /\ contains "TODAY" s = true /\
  contains (String sg "") s = true /\ (sg = "-"%char -> contains "+" s = false) /\
  exists a w, split (String sg "") s = [a; w] /\ py_float (strip w) = Some (FNum (inject_Z n)).
Proof.
  intros SG (b0 & b1 & b2 & ds & b3 & -> & B0 & B1 & B2 & B3 & D & N & V).
  assert (NS : sg <> " "%char) by (destruct SG as [-> | ->]; discriminate).
  assert (ND : ~ is_digit sg) by (destruct SG as [-> | ->]; unfold is_digit; cbn; lia).
  assert (SPC : is_space sg = false) by (destruct SG as [-> | ->]; reflexivity).
  assert (NT : ~ In sg (list_ascii_of_string "TODAY")) by (destruct SG as [-> | ->]; cbn; intuition discriminate).
  split; [|split; [|split; [|split; [|split]]]].
  - destruct b0 as [|c b0].
    + apply strptime_first. reflexivity.
    + change (String c b0 ++ "TODAY" ++ b1 ++ String sg "" ++ b2 ++ ds ++ b3) with (String c (b0 ++ "TODAY" ++ b1 ++ String sg "" ++ b2 ++ ds ++ b3)).
      apply strptime_first. rewrite (B0 c) by (left; auto). reflexivity.
  - apply String.eqb_neq. intros E.
    assert (I : In sg (list_ascii_of_string (strip (b0 ++ "TODAY" ++ b1 ++ String sg "" ++ b2 ++ ds ++ b3)))).
    { apply strip_keeps; auto. rewrite !chars_app. rewrite !in_app_iff. cbn [list_ascii_of_string In]. tauto. }
    rewrite E in I. contradiction.
  - apply contains_mid. discriminate.
  - replace (b0 ++ "TODAY" ++ b1 ++ String sg "" ++ b2 ++ ds ++ b3) with ((b0 ++ "TODAY" ++ b1) ++ String sg "" ++ (b2 ++ ds ++ b3)).
    + apply contains_mid. discriminate.
    + rewrite !app_assoc_s. reflexivity.
  - intros ->. unfold contains. rewrite cut_none; auto. rewrite !free_app. repeat split.
    all: try (apply blanks_free; [discriminate|assumption]).
    + intros I. cbn in I. intuition discriminate.
    + intros I. cbn in I. intuition discriminate.
    + apply digits_free; auto. unfold is_digit. cbn. lia.
  - exists (b0 ++ "TODAY" ++ b1), (b2 ++ ds ++ b3). split.
    + replace (b0 ++ "TODAY" ++ b1 ++ String sg "" ++ b2 ++ ds ++ b3) with ((b0 ++ "TODAY" ++ b1) ++ String sg "" ++ (b2 ++ ds ++ b3)) by (rewrite !app_assoc_s; reflexivity).
      rewrite split_first.
      * f_equal. apply split_none. rewrite !free_app. repeat split.
        -- apply blanks_free; auto.
        -- apply digits_free; auto.
        -- apply blanks_free; auto.
      * rewrite !free_app. repeat split; [apply blanks_free; auto|exact NT|apply blanks_free; auto].
    + rewrite strip_digits by auto. rewrite float_digits by auto. rewrite V. reflexivity.
Qed.

Lemma parse_relative pad now s sg n : (sg = "+"%char \/ sg = "-"%char) -> relative_text s sg n -> year_ok (today_of now) ->
  parse_datetime pad now s =
    let k := now / us_per_day + (if Ascii.eqb sg "+" then n else - n) in
    if (k <? 1) || (3652059 <? k) then Err OverflowError else Ok (strftime pad (ord2ymd k)).
Proof.
  intros SG R T. destruct (relative_parts s sg n SG R) as (P1 & P2 & P3 & P4 & P5 & a & w & P6 & P7).
  unfold parse_datetime. rewrite (relative_upper s sg n SG R). rewrite P1, P2, P3. cbn [negb].
  destruct SG as [-> | ->].
  - rewrite P4, P6, py_nth_1. cbn [bind]. rewrite P7, shift_days by auto. cbn [Ascii.eqb Bool.eqb]. cbn zeta.
    destruct ((now / us_per_day + n <? 1) || (3652059 <? now / us_per_day + n)); reflexivity.
  - rewrite P5, P4, P6, py_nth_1 by auto. cbn [bind]. rewrite P7. cbn [fneg].
    rewrite <- inject_Z_opp, shift_days by auto. cbn [Ascii.eqb Bool.eqb]. cbn zeta.
    destruct ((now / us_per_day + - n <? 1) || (3652059 <? now / us_per_day + - n)); reflexivity.
Qed.

(** ** Errors *)
Lemma split_two c sep s : contains (String c sep) s = true -> exists a b l, split (String c sep) s = a :: b :: l.
Proof.
  unfold contains. rewrite split_cut. destruct (cut (String c sep) s) as [[a b]|]; [|discriminate]. intros _.
  rewrite split_cut. destruct (cut (String c sep) b) as [[a' b']|]; eauto.
Qed.
Lemma parse_errors pad now s e : parse_datetime pad now s = Err e -> e = ValueError \/ e = OverflowError.
Proof.
  assert (SH : forall x, (date <- shifted_today now x ;; Ok (strftime pad date)) = Err e -> e = ValueError \/ e = OverflowError).
  { intros x. unfold shifted_today. destruct x; cbn [bind]; try (intros [= <-]; auto).
    destruct (_ || _); [intros [= <-]; auto|]. destruct (_ || _); [intros [= <-]; auto|discriminate]. }
  unfold parse_datetime. cbn zeta. destruct (strptime (upper s)); [discriminate|].
  destruct (String.eqb (strip (upper s)) "TODAY"); [discriminate|].
  destruct (negb (contains "TODAY" (upper s))); [intros [= <-]; auto|].
  destruct (contains "+" (upper s)) eqn:E.
  - destruct (split_two _ _ _ E) as (a & b & l & ->). rewrite py_nth_1. cbn [bind].
    destruct (py_float (strip b)); [apply SH|intros [= <-]; auto].
  - destruct (contains "-" (upper s)) eqn:F; [|intros [= <-]; auto].
    destruct (split_two _ _ _ F) as (a & b & l & ->). rewrite py_nth_1. cbn [bind].
    destruct (py_float (strip b)); [apply SH|intros [= <-]; auto].
Qed.

(** ** The configuration validator *)
Lemma fromiso_iff s : fromisoformat s = true <-> exists date, iso_text s date /\ calendar_date date /\ year_ok date.
Proof.
  split.
  - unfold fromisoformat.
    destruct s as [|y1 [|y2 [|y3 [|y4 [|h1 [|m1 [|m2 [|h2 [|d1 [|d2 [|]]]]]]]]]]]; try discriminate.
    destruct (Ascii.eqb_spec h1 "-"); [|discriminate]. destruct (Ascii.eqb_spec h2 "-"); [|discriminate]. subst. cbn [andb].
    destruct (digits2 y1 y2) as [h|] eqn:E1; [|discriminate]. destruct (digits2 y3 y4) as [l|] eqn:E2; [|discriminate].
    destruct (digits2 m1 m2) as [m|] eqn:E3; [|discriminate]. destruct (digits2 d1 d2) as [d|] eqn:E4; [|discriminate].
    intros R. apply real_date_spec in R as [C Y]. exists (100 * h + l, m, d). split; [|auto]. split; [|reflexivity].
    apply digits2_some in E1 as (A1 & A2 & ->), E2 as (A3 & A4 & ->), E3 as (A5 & A6 & ->), E4 as (A7 & A8 & ->).
    exists (String y1 (String y2 (String y3 (String y4 "")))), (String m1 (String m2 "")), (String d1 (String d2 "")).
    split; [reflexivity|].
    repeat (split; [first [reflexivity|right; reflexivity|repeat (apply digits_cons; split; auto); apply digits_nil|unfold value; cbn [value_from]; lia]|]).
    reflexivity.
  - intros ([[y m] d] & [(ys & ms & ds & -> & Dy & Dm & Dd & Ly & Lm & Ld & Vy & Vm & Vd) L] & C & Y).
    rewrite !length_app_s in L. cbn [String.length] in L.
    assert (Lm' : String.length ms = 2%nat) by lia. assert (Ld' : String.length ds = 2%nat) by lia.
    apply length_4 in Ly as (y1 & y2 & y3 & y4 & ->). apply length_2 in Lm' as (m1 & m2 & ->). apply length_2 in Ld' as (d1 & d2 & ->).
    cbn [append fromisoformat Ascii.eqb Bool.eqb andb].
    repeat match goal with H : all_digits (String _ _) |- _ => apply digits_cons in H as [? H] end.
    rewrite (proj2 (digits2_some y1 y2 _)) by (split; [|split]; [assumption|assumption|reflexivity]).
    rewrite (proj2 (digits2_some y3 y4 _)) by (split; [|split]; [assumption|assumption|reflexivity]).
    rewrite (proj2 (digits2_some m1 m2 _)) by (split; [|split]; [assumption|assumption|reflexivity]).
    rewrite (proj2 (digits2_some d1 d2 _)) by (split; [|split]; [assumption|assumption|reflexivity]).
    rewrite Vm, Vd.
    replace (100 * value (String y1 (String y2 "")) + value (String y3 (String y4 ""))) with y
      by (rewrite <- Vy; unfold value; cbn [value_from]; lia).
    apply real_date_spec. split; auto.
Qed.

(** The parser accepts what the validator accepts of the two documented forms. *)
Lemma drop_char_app c s t : drop_char c (s ++ t) = drop_char c s ++ drop_char c t.
Proof. induction s as [|d s IH]; [reflexivity|]. cbn. destruct (Ascii.eqb c d); rewrite IH; reflexivity. Qed.
Lemma drop_blanks b : blanks b -> drop_char " " b = "".
Proof.
  induction b as [|c b IH]; intros H; [reflexivity|]. cbn. rewrite (H c) by (left; auto). cbn.
  apply IH. intros d I. apply H. right; auto.
Qed.
Lemma valid_relative s sg n : (sg = "+"%char \/ sg = "-"%char) -> relative_text s sg n -> assert_valid_time s = true.
Proof.
  intros SG (b0 & b1 & b2 & ds & b3 & -> & B0 & B1 & B2 & B3 & D & N & V). unfold assert_valid_time.
  rewrite !drop_char_app, (drop_blanks b0 B0), (drop_blanks b1 B1), (drop_blanks b2 B2), (drop_blanks b3 B3). cbn [append].
  assert (E : drop_char " " (String sg "") = String sg "") by (destruct SG as [-> | ->]; reflexivity). rewrite E.
  destruct ds as [|c ds]; [congruence|]. apply digits_cons in D as [Dc D].
  assert (E2 : drop_char " " (String c ds) = String c (drop_char " " ds)).
  { cbn [drop_char]. destruct (Ascii.eqb_spec " " c); auto. subst. unfold is_digit in Dc. cbn in Dc. lia. }
  rewrite E2. change (drop_char " " "TODAY") with "TODAY".
  destruct (is_digit_some c Dc) as (x & Ex & _).
  assert (M : match_relative ("TODAY" ++ String sg "" ++ String c (drop_char " " ds) ++ "") = true).
  { destruct SG as [-> | ->]; cbn; rewrite Ex; reflexivity. }
  cbn [append] in M |- *. rewrite M. reflexivity.
Qed.
Lemma parse_today pad now : parse_datetime pad now "TODAY" = Ok (strftime pad (today_of now)).
Proof. reflexivity. Qed.

(** ** Calendar facts about the shift *)
Lemma value_from_nonneg s : forall acc, 0 <= acc -> all_digits s -> 0 <= value_from acc s.
Proof.
  induction s as [|c s IH]; intros acc A D; [exact A|]. apply digits_cons in D as [Dc D]. cbn [value_from].
  apply IH; auto. unfold is_digit in Dc. lia.
Qed.
Lemma value_nonneg s : all_digits s -> 0 <= value s.
Proof. apply value_from_nonneg. lia. Qed.
Lemma year_shift now n : year_ok (today_of now) ->
  year_ok (ord2ymd (now / us_per_day + n)) <-> ((now / us_per_day + n <? 1) || (3652059 <? now / us_per_day + n) = false).
Proof.
  intros T. rewrite <- ord2ymd_year. rewrite orb_false_iff, Z.ltb_ge, Z.ltb_ge. lia.
Qed.
Lemma relative_date pad now s sg n : (sg = "+"%char \/ sg = "-"%char) -> relative_text s sg n -> year_ok (today_of now) ->
  exists date, calendar_date date /\
    (if Ascii.eqb sg "+" then days_after (Z.to_nat n) (today_of now) date else days_after (Z.to_nat n) date (today_of now)) /\
    (year_ok date -> parse_datetime pad now s = Ok (strftime pad date)) /\
    (~ year_ok date -> parse_datetime pad now s = Err OverflowError).
Proof.
  intros SG R T.
  assert (NN : 0 <= n).
  { destruct R as (b0 & b1 & b2 & ds & b3 & _ & _ & _ & _ & _ & D & _ & <-). apply value_nonneg; auto. }
  set (m := if Ascii.eqb sg "+" then n else - n).
  exists (ord2ymd (now / us_per_day + m)). split; [apply ord2ymd_calendar|].
  pose proof (parse_relative pad now s sg n SG R T) as P. cbn zeta in P. fold m in P. split; [|split].
  - unfold today_of, m. destruct SG as [-> | ->]; cbn [Ascii.eqb Bool.eqb].
    + pose proof (ord2ymd_shift (now / us_per_day) (Z.to_nat n)) as H. rewrite Z2Nat.id in H by auto. exact H.
    + pose proof (ord2ymd_shift (now / us_per_day + - n) (Z.to_nat n)) as H. rewrite Z2Nat.id in H by auto.
      replace (now / us_per_day + - n + n) with (now / us_per_day) in H by lia. exact H.
  - intros Y. apply year_shift in Y; auto. rewrite Y in P. exact P.
  - intros Y. destruct ((now / us_per_day + m <? 1) || (3652059 <? now / us_per_day + m)) eqn:E; [exact P|].
    destruct Y. apply year_shift; auto.
Qed.
(** A date has one YYYY-MM-DD text. *)
Lemma value_from_inj s : forall t acc acc', all_digits s -> all_digits t -> String.length s = String.length t ->
  value_from acc s = value_from acc' t -> acc = acc' /\ s = t.
Proof.
  induction s as [|c s IH]; intros [|d t] acc acc' D E L V; try discriminate; [auto|].
  apply digits_cons in D as [Dc D]. apply digits_cons in E as [Ed E]. cbn [String.length value_from] in *.
  destruct (IH t _ _ D E ltac:(lia) V) as [H ->]. unfold is_digit in *.
  assert (acc = acc' /\ nat_of_ascii c = nat_of_ascii d) as [-> F] by lia. split; auto.
  rewrite <- (ascii_nat_embedding c), F, ascii_nat_embedding. reflexivity.
Qed.
Lemma iso_unique s t date : iso_text s date -> iso_text t date -> s = t.
Proof.
  destruct date as [[y m] d].
  intros [(ys & ms & ds & -> & Dy & Dm & Dd & Ly & Lm & Ld & Vy & Vm & Vd) L]
         [(zs & ns & es & -> & Ez & En & Ee & Lz & Ln & Le & Wy & Wm & Wd) M].
  rewrite !length_app_s in L, M. cbn [String.length] in L, M.
  destruct (value_from_inj ys zs 0 0 Dy Ez ltac:(lia) ltac:(unfold value in *; congruence)) as [_ ->].
  destruct (value_from_inj ms ns 0 0 Dm En ltac:(lia) ltac:(unfold value in *; congruence)) as [_ ->].
  destruct (value_from_inj ds es 0 0 Dd Ee ltac:(lia) ltac:(unfold value in *; congruence)) as [_ ->].
  reflexivity.
Qed.
