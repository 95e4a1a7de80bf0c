(** The calendar: Python's algorithm against the specification. *)
From Verif Require Import Base PyStr Dates DateSpec.
Open Scope Z_scope.

Lemma is_leap_spec y : is_leap y = true <-> leap_year y.
Proof.
  unfold is_leap, leap_year. rewrite andb_true_iff, orb_true_iff, negb_true_iff, !Z.eqb_eq, Z.eqb_neq.
  rewrite !Z.mod_divide by lia. tauto.
Qed.
Lemma month_length_spec y m : 1 <= m <= 12 -> month_length y m (days_in_month y m).
Proof.
  intros H. assert (M : In m [1;2;3;4;5;6;7;8;9;10;11;12]) by (cbn; lia).
  unfold days_in_month. cbn in M.
  repeat (destruct M as [<-|M]; [cbn [Z.eqb Pos.eqb orb]; try (constructor; cbn; tauto)|]); [|destruct M].
  destruct (is_leap y) eqn:E; constructor; rewrite <- is_leap_spec; congruence.
Qed.
Lemma month_length_fun y m l : month_length y m l -> 1 <= m <= 12 /\ l = days_in_month y m.
Proof.
  intros H. assert (M : 1 <= m <= 12). { destruct H; cbn in *; lia. } split; auto.
  destruct H as [m I|m I|L|L].
  - cbn in I. repeat (destruct I as [<-|I]; [reflexivity|]); destruct I.
  - cbn in I. repeat (destruct I as [<-|I]; [reflexivity|]); destruct I.
  - apply is_leap_spec in L. unfold days_in_month. rewrite L. reflexivity.
  - unfold days_in_month. cbn. destruct (is_leap y) eqn:E; auto. apply is_leap_spec in E. contradiction.
Qed.
Definition valid (y m d : Z) : Prop := 1 <= m <= 12 /\ 1 <= d <= days_in_month y m.
Lemma calendar_valid y m d : calendar_date (y, m, d) <-> valid y m d.
Proof.
  split.
  - intros (l & H & D). apply month_length_fun in H as [M ->]. split; auto.
  - intros [M D]. exists (days_in_month y m). split; auto. apply month_length_spec; auto.
Qed.

(** ** Years *)
Definition lp (y : Z) : Z := if is_leap y then 1 else 0.
Lemma lp_dby y : days_before_year (y + 1) = days_before_year y + 365 + lp y.
Proof.
  unfold days_before_year, lp, is_leap. replace (y + 1 - 1) with y by lia.
  destruct (Z.eqb_spec (y mod 4) 0), (Z.eqb_spec (y mod 100) 0), (Z.eqb_spec (y mod 400) 0); cbn [andb orb negb];
    Z.to_euclidean_division_equations; lia.
Qed.
Lemma lp_range y : 0 <= lp y <= 1.
Proof. unfold lp. destruct (is_leap y); lia. Qed.
Lemma dby_mono y n : 0 <= n -> days_before_year y <= days_before_year (y + n).
Proof.
  intros H. rewrite <- (Z2Nat.id n) by auto. induction (Z.to_nat n) as [|k IH].
  - rewrite Z.add_0_r. lia.
  - replace (y + Z.of_nat (S k)) with (y + Z.of_nat k + 1) by lia. rewrite lp_dby.
    pose proof (lp_range (y + Z.of_nat k)). lia.
Qed.

(** ** Within a year *)
Definition doy (lpv : bool) (m d : Z) : Z := before_month m + (if (2 <? m) && lpv then 1 else 0) + d.
Definition dim (lpv : bool) (m : Z) : Z :=
  if m =? 2 then (if lpv then 29 else 28)
  else if (m =? 4) || (m =? 6) || (m =? 9) || (m =? 11) then 30 else 31.
Lemma dim_eq y m : days_in_month y m = dim (is_leap y) m.
Proof. reflexivity. Qed.
Lemma ord_eq y m d : ymd2ord y m d = days_before_year y + doy (is_leap y) m d.
Proof. unfold ymd2ord, days_before_month, doy. lia. Qed.

Ltac months m H := 
  let M := fresh in assert (M : In m [1;2;3;4;5;6;7;8;9;10;11;12]) by (cbn; lia); cbn in M;
  repeat (destruct M as [<-|M]); try destruct M; clear H.

Ltac zcomp := cbv -[Z.add Z.sub Z.le Z.lt Z.gt Z.ge days_before_year is_leap not] in *.
Lemma doy_range b m d : 1 <= m <= 12 -> 1 <= d <= dim b m -> 1 <= doy b m d <= 365 + (if b then 1 else 0).
Proof. intros H D. months m H; destruct b; zcomp; lia. Qed.
Lemma doy_next b m : 1 <= m < 12 -> doy b m (dim b m) + 1 = doy b (m + 1) 1.
Proof.
  intros H. assert (H' : 1 <= m <= 12) by lia. months m H'; (exfalso; lia) || (destruct b; reflexivity).
Qed.
Lemma doy_before b m m' d d' : 1 <= m < m' -> m' <= 12 -> d <= dim b m -> 1 <= d' -> doy b m d < doy b m' d'.
Proof.
  intros H H' D D'. assert (H1 : 1 <= m <= 12) by lia. assert (H2 : 1 <= m' <= 12) by lia.
  assert (L : m < m') by lia. clear H H'.
  months m H1; months m' H2; try (exfalso; lia); destruct b; zcomp; lia.
Qed.

Lemma ord_inj y m d y' m' d' : valid y m d -> valid y' m' d' -> ymd2ord y m d = ymd2ord y' m' d' ->
  (y, m, d) = (y', m', d').
Proof.
  assert (Y : forall y m d y' m' d', valid y m d -> valid y' m' d' -> y < y' -> ymd2ord y m d < ymd2ord y' m' d').
  { clear. intros y m d y' m' d' [M D] [M' D'] L. rewrite !ord_eq. rewrite dim_eq in D, D'.
    pose proof (doy_range _ _ _ M D) as R. pose proof (doy_range _ _ _ M' D') as R'.
    pose proof (lp_dby y) as N. pose proof (dby_mono (y + 1) (y' - (y + 1)) ltac:(lia)) as P.
    replace (y + 1 + (y' - (y + 1))) with y' in P by lia. unfold lp in N. lia. }
  intros V V' E.
  assert (y = y').
  { destruct (Z.lt_trichotomy y y') as [L|[L|L]]; auto.
    - pose proof (Y _ _ _ _ _ _ V V' L). lia.
    - pose proof (Y _ _ _ _ _ _ V' V L). lia. }
  subst y'. destruct V as [M D], V' as [M' D']. rewrite !ord_eq in E. rewrite dim_eq in D, D'.
  assert (m = m').
  { destruct (Z.lt_trichotomy m m') as [L|[L|L]]; auto.
    - pose proof (doy_before (is_leap y) m m' d d' ltac:(lia) ltac:(lia) ltac:(lia) ltac:(lia)). lia.
    - pose proof (doy_before (is_leap y) m' m d' d ltac:(lia) ltac:(lia) ltac:(lia) ltac:(lia)). lia. }
  subst m'. unfold doy in E. f_equal. lia.
Qed.

Lemma next_valid y m d b : valid y m d -> next_day (y, m, d) b ->
  let '(y', m', d') := b in valid y' m' d' /\ ymd2ord y' m' d' = ymd2ord y m d + 1.
Proof.
  intros [M D] H. inversion H; subst; clear H.
  - match goal with L : month_length _ _ _ |- _ => apply month_length_fun in L as [_ ->] end.
    split; [split; auto; lia|]. unfold ymd2ord. lia.
  - match goal with L : month_length _ _ _ |- _ => apply month_length_fun in L as [_ ->] end.
    split.
    + split; [lia|]. rewrite dim_eq. assert (1 <= m + 1 <= 12) as H by lia. revert H. generalize (m + 1). intros k H.
      months k H; destruct (is_leap y); zcomp; lia.
    + rewrite !ord_eq. rewrite dim_eq. pose proof (doy_next (is_leap y) m ltac:(lia)). lia.
  - split; [split; [lia|cbn; lia]|]. rewrite !ord_eq, lp_dby. unfold lp, doy. destruct (is_leap y), (is_leap (y + 1)); zcomp; lia.
Qed.
Lemma next_exists y m d : valid y m d -> exists b, next_day (y, m, d) b.
Proof.
  intros [M D]. pose proof (month_length_spec y m M) as L.
  destruct (Z.eq_dec d (days_in_month y m)) as [->|N].
  - destruct (Z.eq_dec m 12) as [->|N].
    + eexists. apply nd_year.
    + eexists. apply nd_month; [exact L|lia].
  - eexists. eapply nd_day; [exact L|lia].
Qed.

(** ** Python's ord2ymd *)
Definition month_of (b : bool) (u : Z) : Z * Z :=
  let month := (u + 50) / 32 in
  let preceding := before_month month + (if (2 <? month) && b then 1 else 0) in
  if u <? preceding then
    (month - 1, preceding - (nth (Z.to_nat (month - 1)) [0; 31; 28; 31; 30; 31; 30; 31; 31; 30; 31; 30; 31] 0
                             + (if (month - 1 =? 2) && b then 1 else 0)))
  else (month, preceding).
Lemma month_of_ok b u : 0 <= u < 365 -> let '(m, p) := month_of b u in
  1 <= m <= 12 /\ 1 <= u - p + 1 <= dim b m /\ doy b m (u - p + 1) = u + 1.
Proof.
  intros H.
  assert (F : forallb (fun k => let u := Z.of_nat k in let '(m, p) := month_of b u in
     (1 <=? m) && (m <=? 12) && (1 <=? u - p + 1) && (u - p + 1 <=? dim b m) && (doy b m (u - p + 1) =? u + 1)) (seq 0 365) = true).
  { destruct b; vm_compute; reflexivity. }
  rewrite forallb_forall in F. specialize (F (Z.to_nat u)).
  rewrite in_seq in F. specialize (F ltac:(lia)). cbn zeta in F. rewrite Z2Nat.id in F by lia.
  destruct (month_of b u) as [m p]. rewrite !andb_true_iff, !Z.leb_le, Z.eqb_eq in F. tauto.
Qed.

Lemma year_parts a b c e : 0 <= b <= 3 -> 0 <= c <= 24 -> 0 <= e <= 3 ->
  let y := 400 * a + 100 * b + 4 * c + e + 1 in
  days_before_year y = 146097 * a + 36524 * b + 1461 * c + 365 * e /\
  is_leap y = (e =? 3) && (negb (c =? 24) || (b =? 3)).
Proof.
  intros Hb Hc He y. split.
  - unfold days_before_year, y. replace (400 * a + 100 * b + 4 * c + e + 1 - 1) with (400 * a + 100 * b + 4 * c + e) by lia.
    rewrite <- (Z.div_unique (400 * a + 100 * b + 4 * c + e) 4 (100 * a + 25 * b + c) e) by lia.
    rewrite <- (Z.div_unique (400 * a + 100 * b + 4 * c + e) 100 (4 * a + b) (4 * c + e)) by lia.
    rewrite <- (Z.div_unique (400 * a + 100 * b + 4 * c + e) 400 a (100 * b + 4 * c + e)) by lia. lia.
  - unfold is_leap, y.
    assert (M4 : (400 * a + 100 * b + 4 * c + e + 1) mod 4 = if e =? 3 then 0 else e + 1).
    { destruct (Z.eqb_spec e 3).
      - symmetry. apply Z.mod_unique with (100 * a + 25 * b + c + 1); lia.
      - symmetry. apply Z.mod_unique with (100 * a + 25 * b + c); lia. }
    assert (M100 : (400 * a + 100 * b + 4 * c + e + 1) mod 100 = if (e =? 3) && (c =? 24) then 0 else 4 * c + e + 1).
    { destruct (Z.eqb_spec e 3), (Z.eqb_spec c 24); cbn [andb]; symmetry;
        (apply Z.mod_unique with (4 * a + b + 1); lia) || (apply Z.mod_unique with (4 * a + b); lia). }
    assert (M400 : (400 * a + 100 * b + 4 * c + e + 1) mod 400 =
       if (e =? 3) && (c =? 24) && (b =? 3) then 0 else 100 * b + 4 * c + e + 1).
    { destruct (Z.eqb_spec e 3), (Z.eqb_spec c 24), (Z.eqb_spec b 3); cbn [andb]; symmetry;
        (apply Z.mod_unique with (a + 1); lia) || (apply Z.mod_unique with a; lia). }
    rewrite M4, M100, M400. destruct (Z.eqb_spec e 3), (Z.eqb_spec c 24), (Z.eqb_spec b 3); cbn [andb orb negb]; subst;
      repeat match goal with |- context [?x =? ?y] => destruct (Z.eqb_spec x y); try lia end; reflexivity.
Qed.

Lemma ord2ymd_ok n : let '(y, m, d) := ord2ymd n in valid y m d /\ ymd2ord y m d = n.
Proof.
  unfold ord2ymd. cbn zeta.
  set (a := (n - 1) / 146097). set (r := (n - 1) mod 146097).
  set (b := r / 36524). set (s := r mod 36524). set (c := s / 1461). set (t := s mod 1461).
  set (e := t / 365). set (u := t mod 365).
  assert (E1 : n - 1 = 146097 * a + r /\ 0 <= r < 146097) by (unfold a, r; split; [apply Z.div_mod; lia|apply Z.mod_pos_bound; lia]).
  assert (E2 : r = 36524 * b + s /\ 0 <= s < 36524) by (unfold b, s; split; [apply Z.div_mod; lia|apply Z.mod_pos_bound; lia]).
  assert (E3 : s = 1461 * c + t /\ 0 <= t < 1461) by (unfold c, t; split; [apply Z.div_mod; lia|apply Z.mod_pos_bound; lia]).
  assert (E4 : t = 365 * e + u /\ 0 <= u < 365) by (unfold e, u; split; [apply Z.div_mod; lia|apply Z.mod_pos_bound; lia]).
  clearbody a r b s c t e u.
  assert (Hb : 0 <= b <= 4) by lia. assert (Hc : 0 <= c <= 24) by lia. assert (He : 0 <= e <= 4) by lia.
  destruct (Z.eqb_spec e 4) as [X4|X4]; [|destruct (Z.eqb_spec b 4) as [Y4|Y4]]; cbn [orb].
  - assert (c < 24) by lia. assert (b <= 3) by lia.
    destruct (year_parts a b c 3) as [P Q]; try lia.
    replace (a * 400 + 1 + b * 100 + c * 4 + e - 1) with (400 * a + 100 * b + 4 * c + 3 + 1) by lia.
    destruct (Z.eqb_spec c 24); [lia|]. cbn [Z.eqb Pos.eqb negb orb andb] in Q.
    split.
    + split; [lia|]. rewrite dim_eq, Q. cbn; lia.
    + rewrite ord_eq, Q, P. replace (doy true 12 31) with 366 by reflexivity. lia.
  - assert (c = 0 /\ e = 0 /\ u = 0) by lia.
    destruct (year_parts a 3 24 3) as [P Q]; try lia.
    replace (a * 400 + 1 + b * 100 + c * 4 + e - 1) with (400 * a + 100 * 3 + 4 * 24 + 3 + 1) by lia.
    cbn [Z.eqb Pos.eqb negb orb andb] in Q.
    split.
    + split; [lia|]. rewrite dim_eq, Q. cbn; lia.
    + rewrite ord_eq, Q, P. replace (doy true 12 31) with 366 by reflexivity. lia.
  - destruct (year_parts a b c e) as [P Q]; try lia.
    replace (a * 400 + 1 + b * 100 + c * 4 + e) with (400 * a + 100 * b + 4 * c + e + 1) by lia.
    set (lf := (e =? 3) && (negb (c =? 24) || (b =? 3))) in *.
    pose proof (month_of_ok lf u ltac:(lia)) as W. unfold month_of in W.
    destruct (u <? before_month ((u + 50) / 32) + (if (2 <? (u + 50) / 32) && lf then 1 else 0)).
    + destruct W as (W1 & W2 & W3). split; [split; [exact W1|rewrite dim_eq, Q; exact W2]|].
      rewrite ord_eq, Q, P, W3. lia.
    + destruct W as (W1 & W2 & W3). split; [split; [exact W1|rewrite dim_eq, Q; exact W2]|].
      rewrite ord_eq, Q, P, W3. lia.
Qed.
Lemma ord2ymd_inv y m d : valid y m d -> ord2ymd (ymd2ord y m d) = (y, m, d).
Proof.
  intros V. pose proof (ord2ymd_ok (ymd2ord y m d)) as H. destruct (ord2ymd (ymd2ord y m d)) as [[y' m'] d'].
  destruct H as [V' E]. apply ord_inj; auto.
Qed.

(** ** Shifting by days *)
Lemma days_after_ord k : forall a b, calendar_date a ->
  days_after k a b -> calendar_date b /\
  (let '(y, m, d) := a in ymd2ord y m d) + Z.of_nat k = (let '(y, m, d) := b in ymd2ord y m d).
Proof.
  induction k; intros a b C H; inversion H; subst; clear H.
  - split; auto. rewrite Z.add_0_r. reflexivity.
  - destruct a as [[y m] d]. apply calendar_valid in C.
    match goal with N : next_day _ ?b0 |- _ => pose proof (next_valid _ _ _ _ C N) as P; destruct b0 as [[y' m'] d'] end.
    destruct P as [V E]. apply calendar_valid in V.
    match goal with N : days_after k _ _ |- _ => destruct (IHk _ _ V N) as [V' E'] end.
    split; auto. rewrite <- E', E. lia.
Qed.
Lemma days_after_ex k : forall a, calendar_date a -> exists b, days_after k a b.
Proof.
  induction k; intros a C; [exists a; constructor|]. destruct a as [[y m] d].
  pose proof (proj1 (calendar_valid y m d) C) as V. destruct (next_exists _ _ _ V) as (b & N).
  pose proof (next_valid _ _ _ _ V N) as P. destruct b as [[y' m'] d']. destruct P as [V' _].
  destruct (IHk (y', m', d')) as (c & H); [apply calendar_valid; auto|]. exists c. econstructor; eauto.
Qed.
Lemma ord2ymd_calendar n : calendar_date (ord2ymd n).
Proof.
  pose proof (ord2ymd_ok n) as H. destruct (ord2ymd n) as [[y m] d]. apply calendar_valid. tauto.
Qed.
(** The day number [n + k] is [k] days after the day number [n]. *)
Lemma ord2ymd_shift n k : days_after k (ord2ymd n) (ord2ymd (n + Z.of_nat k)).
Proof.
  destruct (days_after_ex k (ord2ymd n) (ord2ymd_calendar n)) as (b & H).
  destruct (days_after_ord k _ _ (ord2ymd_calendar n) H) as [C E].
  pose proof (ord2ymd_ok n) as P. destruct (ord2ymd n) as [[y m] d]. destruct P as [_ P].
  destruct b as [[y' m'] d']. rewrite P in E. rewrite E, ord2ymd_inv by (apply calendar_valid; auto). exact H.
Qed.
Lemma ord2ymd_year n : 1 <= n <= 3652059 <-> year_ok (ord2ymd n).
Proof.
  pose proof (ord2ymd_ok n) as P. destruct (ord2ymd n) as [[y m] d] eqn:E. destruct P as [[M D] P].
  unfold year_ok. cbn [fst]. rewrite ord_eq in P. rewrite dim_eq in D. pose proof (doy_range _ _ _ M D) as R.
  assert (B1 : days_before_year 1 = 0) by reflexivity.
  assert (B2 : days_before_year 10000 = 3652059) by reflexivity.
  split; intros H.
  - split.
    + destruct (Z.le_gt_cases 1 y); auto. pose proof (dby_mono (y + 1) (1 - (y + 1)) ltac:(lia)) as Q.
      replace (y + 1 + (1 - (y + 1))) with 1 in Q by lia. pose proof (lp_dby y) as L. unfold lp in L. lia.
    + destruct (Z.le_gt_cases y 9999); auto. pose proof (dby_mono 10000 (y - 10000) ltac:(lia)) as Q.
      replace (10000 + (y - 10000)) with y in Q by lia. lia.
  - pose proof (dby_mono 1 (y - 1) ltac:(lia)) as Q. replace (1 + (y - 1)) with y in Q by lia.
    pose proof (dby_mono (y + 1) (10000 - (y + 1)) ltac:(lia)) as Q'. replace (y + 1 + (10000 - (y + 1))) with 10000 in Q' by lia.
    pose proof (lp_dby y) as L. unfold lp in L. lia.
Qed.
Lemma real_date_spec y m d : real_date y m d = true <-> (calendar_date (y, m, d) /\ year_ok (y, m, d)).
Proof.
  unfold real_date. rewrite !andb_true_iff, !Z.leb_le, calendar_valid. unfold valid, year_ok. cbn. tauto.
Qed.
