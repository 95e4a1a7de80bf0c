(** Proofs about rounding to significant figures. *)
From Coq Require Import Qabs Qpower.
From Verif Require Import Base QLib Geo Cell PyStr Dates Config Compare CompareSpec.
Open Scope Z_scope.

Ltac qabs_cases :=
  repeat match goal with |- context [Qabs ?t] => pattern (Qabs t); apply Qabs_case; let H := fresh in intro H end; intros.

Lemma pow10_pos : forall k, (0 < pow10 k)%Q.
Proof.
  intros k. unfold pow10. destruct (Q_dec (10 ^ k) 0) as [[H|H]|H]; [|exact H|].
  - pose proof (Qpower_pos 10 k). lra.
  - apply Qpower_not_0 in H; [tauto|]. intros E. discriminate E.
Qed.
Lemma pow10_plus : forall a b, (pow10 (a + b) == pow10 a * pow10 b)%Q.
Proof. intros. apply Qpower_plus. intros E. discriminate E. Qed.
Lemma pow10_0 : (pow10 0 == 1)%Q. Proof. reflexivity. Qed.
Lemma pow10_succ : forall k, (pow10 (k + 1) == 10 * pow10 k)%Q.
Proof. intros. rewrite pow10_plus. change (pow10 1) with (10 # 1)%Q. ring. Qed.
Lemma pow10_inv : forall k, (pow10 k * pow10 (- k) == 1)%Q.
Proof. intros. rewrite <- pow10_plus. replace (k + - k) with 0 by lia. reflexivity. Qed.
Lemma pow10_int : forall k, 0 <= k -> (pow10 k == inject_Z (10 ^ k))%Q.
Proof. intros k H. unfold pow10. rewrite Zpower_Qpower by exact H. reflexivity. Qed.
Lemma pow10_mono : forall a b, a <= b -> (pow10 a <= pow10 b)%Q.
Proof.
  intros a b H. replace b with (a + (b - a)) by lia. rewrite pow10_plus.
  assert (1 <= pow10 (b - a))%Q as G.
  { rewrite pow10_int by lia. change 1%Q with (inject_Z 1). rewrite <- Zle_Qle.
    apply (Z.pow_le_mono_r 10 0 (b - a)); lia. }
  pose proof (pow10_pos a). nra.
Qed.

Lemma log_up_spec : forall fuel a, (1 <= a)%Q -> (a < pow10 (Z.of_nat fuel))%Q ->
  (pow10 (log_up fuel a) <= a < pow10 (log_up fuel a + 1))%Q.
Proof.
  induction fuel as [|f IH]; intros a H1 H2.
  - change (pow10 (Z.of_nat 0)) with 1%Q in H2. lra.
  - cbn [log_up]. destruct (qleb 10 a) eqn:E.
    + apply qleb_true in E.
      replace (Z.of_nat (S f)) with (Z.of_nat f + 1) in H2 by lia. rewrite pow10_succ in H2.
      assert (a / 10 == a * (1#10))%Q as D by reflexivity.
      destruct (IH (a / 10)%Q) as [L U]; [rewrite D; lra | rewrite D; lra |].
      set (e := log_up f (a / 10)) in *. replace (1 + e) with (e + 1) by lia.
      rewrite (pow10_succ (e + 1)), !pow10_succ. rewrite pow10_succ in U. rewrite D in *. lra.
    + apply qleb_false in E. change (pow10 0) with 1%Q. change (pow10 (0 + 1)) with 10%Q. lra.
Qed.
Lemma log_down_spec : forall fuel a, (a < 10)%Q -> (1 <= a * pow10 (Z.of_nat fuel))%Q ->
  (pow10 (log_down fuel a) <= a < pow10 (log_down fuel a + 1))%Q.
Proof.
  induction fuel as [|f IH]; intros a H1 H2.
  - change (pow10 (Z.of_nat 0)) with 1%Q in H2. cbn [log_down]. change (pow10 0) with 1%Q. change (pow10 (0 + 1)) with 10%Q. lra.
  - cbn [log_down]. destruct (qltb a 1) eqn:E.
    + apply qltb_true in E.
      replace (Z.of_nat (S f)) with (Z.of_nat f + 1) in H2 by lia. rewrite pow10_succ in H2.
      destruct (IH (a * 10)%Q) as [L U]; [lra | rewrite <- Qmult_assoc; exact H2 |].
      set (e := log_down f (a * 10)) in *.
      replace (pow10 e) with (pow10 ((e - 1) + 1)) in L by (f_equal; lia).
      replace (pow10 (e + 1)) with (pow10 ((e - 1 + 1) + 1)) in U by (f_equal; lia).
      rewrite pow10_succ in L. rewrite (pow10_succ (e - 1 + 1)), (pow10_succ (e - 1)) in U. rewrite pow10_succ. lra.
    + apply qltb_false in E. change (pow10 0) with 1%Q. change (pow10 (0 + 1)) with 10%Q. lra.
Qed.

Lemma pow_2_10 : forall n, 0 <= n -> 2 ^ n <= 10 ^ n.
Proof. intros. apply Z.pow_le_mono_l. lia. Qed.

Lemma floor_log10_spec : forall a, (0 < a)%Q -> (pow10 (floor_log10 a) <= a < pow10 (floor_log10 a + 1))%Q.
Proof.
  intros [n d] H. unfold floor_log10. assert (0 < n) as N by (unfold Qlt in H; cbn in H; lia).
  destruct (qleb 1 (n # d)) eqn:E.
  - apply qleb_true in E. apply log_up_spec; [exact E|]. cbn [Qnum].
    rewrite pow10_int by lia. apply Qle_lt_trans with (inject_Z n).
    + unfold Qle. cbn. nia.
    + rewrite <- Zlt_Qlt. pose proof (Z.log2_spec n N) as [_ U]. pose proof (Z.log2_nonneg n).
      replace (Z.of_nat (S (Z.to_nat (Z.log2 n)))) with (Z.succ (Z.log2 n)) by lia.
      pose proof (pow_2_10 (Z.succ (Z.log2 n)) ltac:(lia)). lia.
  - apply qleb_false in E. apply log_down_spec; [lra |]. cbn [Qden].
    rewrite pow10_int by lia. pose proof (Z.log2_spec (QDen (n # d)) ltac:(cbn; lia)) as [_ U]. cbn [Qden] in U.
    pose proof (Z.log2_nonneg (Zpos d)).
    replace (Z.of_nat (S (Z.to_nat (Z.log2 (Zpos d))))) with (Z.succ (Z.log2 (Zpos d))) by lia.
    pose proof (pow_2_10 (Z.succ (Z.log2 (Zpos d))) ltac:(lia)).
    set (P := 10 ^ Z.succ (Z.log2 (Zpos d))) in *. clearbody P.
    assert (Zpos d <= P) as G by lia. rewrite Zle_Qle in G.
    assert ((n # d) * inject_Z (Zpos d) == inject_Z n)%Q as M by (unfold Qeq; cbn; lia).
    assert (1 <= inject_Z n)%Q as N1 by (change 1%Q with (inject_Z 1); rewrite <- Zle_Qle; lia). nra.
Qed.

Lemma qabs_Qabs : forall x, (qabs x == Qabs x)%Q.
Proof.
  intros x. unfold qabs. destruct (qltb x 0) eqn:E.
  - apply qltb_true in E. rewrite Qabs_neg; [reflexivity|lra].
  - apply qltb_false in E. rewrite Qabs_pos; [reflexivity|lra].
Qed.

Lemma exponent_spec : forall x, ~ (x == 0)%Q -> (pow10 (exponent x) <= Qabs x < pow10 (exponent x + 1))%Q.
Proof.
  intros x H. unfold exponent. destruct (qeqb x 0) eqn:E; [apply qeqb_true in E; tauto|].
  pose proof (qabs_Qabs x) as A. destruct (Qlt_le_dec 0 (Qabs x)) as [P|P].
  - pose proof (floor_log10_spec (qabs x)) as F. lra.
  - exfalso. apply H. revert P. apply Qabs_case; lra.
Qed.

Lemma rint_near : forall x, (Qabs (x - inject_Z (rint x)) <= 1#2)%Q.
Proof.
  intros x. unfold rint. pose proof (Qfloor_le x). pose proof (Qlt_floor x). rewrite inject_Z_plus in H0. change (inject_Z 1) with 1%Q in H0.
  set (f := Qfloor x) in *. clearbody f.
  destruct (qltb (x - inject_Z f) (1#2)) eqn:E1; qhyp.
  - apply Qabs_case; lra.
  - destruct (qltb (1#2) (x - inject_Z f)) eqn:E2; qhyp.
    + rewrite inject_Z_plus. change (inject_Z 1) with 1%Q. apply Qabs_case; lra.
    + destruct (Z.even f); rewrite ?inject_Z_plus; change (inject_Z 1) with 1%Q; apply Qabs_case; lra.
Qed.
(** No integer is closer. *)
Lemma rint_nearest : forall x z, (Qabs (x - inject_Z (rint x)) <= Qabs (x - inject_Z z))%Q.
Proof.
  intros x z. destruct (Z.eq_dec z (rint x)) as [->|N]; [lra|].
  pose proof (rint_near x) as R. set (r := rint x) in *. clearbody r.
  assert (1 <= Qabs (inject_Z r - inject_Z z))%Q as D.
  { assert (r + 1 <= z \/ z + 1 <= r) as [L|L] by lia; rewrite Zle_Qle, inject_Z_plus in L;
      change (inject_Z 1) with 1%Q in L; apply Qabs_case; lra. }
  revert R D. apply Qabs_case; apply Qabs_case; apply Qabs_case; lra.
Qed.
(** A tie goes to an even integer. *)
Lemma rint_tie_even : forall x, (Qabs (x - inject_Z (rint x)) == 1#2)%Q -> Z.even (rint x) = true.
Proof.
  intros x. unfold rint. pose proof (Qfloor_le x). pose proof (Qlt_floor x). rewrite inject_Z_plus in H0. change (inject_Z 1) with 1%Q in H0.
  set (f := Qfloor x) in *. clearbody f.
  destruct (qltb (x - inject_Z f) (1#2)) eqn:E1; qhyp.
  - apply Qabs_case; lra.
  - destruct (qltb (1#2) (x - inject_Z f)) eqn:E2; qhyp.
    + rewrite inject_Z_plus. change (inject_Z 1) with 1%Q. apply Qabs_case; lra.
    + destruct (Z.even f) eqn:Ev; [tauto|]. intros _. rewrite Z.even_add, Ev. reflexivity.
Qed.

Lemma Qabs_scale : forall x y c, (0 < c)%Q -> (Qabs (x * c - y * c) == Qabs (x - y) * c)%Q.
Proof.
  intros x y c H. assert (x * c - y * c == (x - y) * c)%Q as -> by ring. rewrite Qabs_Qmult.
  rewrite (Qabs_pos c) by lra. reflexivity.
Qed.

Lemma around_diff : forall x d z, (Qabs (x - inject_Z z * pow10 (- d)) == Qabs (x * pow10 d - inject_Z z) * pow10 (- d))%Q.
Proof.
  intros x d z. rewrite <- Qabs_scale by apply pow10_pos.
  assert (x * pow10 d * pow10 (- d) == x)%Q as ->; [|reflexivity].
  rewrite <- Qmult_assoc, pow10_inv. ring.
Qed.
Lemma around_near : forall x d, (Qabs (x - around x d) <= (1#2) * pow10 (- d))%Q.
Proof.
  intros x d. unfold around. rewrite around_diff. pose proof (rint_near (x * pow10 d)). pose proof (pow10_pos (- d)). nra.
Qed.
Lemma around_nearest : forall x d z, (Qabs (x - around x d) <= Qabs (x - inject_Z z * pow10 (- d)))%Q.
Proof.
  intros x d z. unfold around. rewrite !around_diff. pose proof (rint_nearest (x * pow10 d) z). pose proof (pow10_pos (- d)). nra.
Qed.

Lemma Qabs_0 : forall x, (Qabs x <= 0)%Q -> (x == 0)%Q.
Proof. intros x. apply Qabs_case; lra. Qed.

Lemma rint_0 : forall x, (x == 0)%Q -> rint x = 0.
Proof.
  intros x H. pose proof (rint_near x) as R. set (r := rint x) in *. clearbody r.
  assert (r <= -1 \/ r = 0 \/ 1 <= r) as [L|[L|L]] by lia; [|exact L|]; rewrite Zle_Qle in L;
    [change (inject_Z (-1)) with (-1)%Q in L | change (inject_Z 1) with 1%Q in L]; revert R; apply Qabs_case; lra.
Qed.

Lemma sigfig_zero : forall x s, (x == 0)%Q -> (sigfig_float x s == 0)%Q.
Proof. intros x s H. unfold sigfig_float, around. generalize (s - exponent x - 1). intros d. rewrite rint_0; [ring|]. rewrite H. ring. Qed.

Lemma sigfig_has : forall x s, 1 <= s -> has_sigfigs s (sigfig_float x s).
Proof.
  intros x s S. destruct (qeqb x 0) eqn:E.
  - apply qeqb_true in E. exists 0, 0. split; [apply Z.pow_pos_nonneg; lia|]. rewrite sigfig_zero by exact E. ring.
  - assert (~ (x == 0)%Q) as N by (rewrite <- qeqb_true, E; discriminate).
    destruct (exponent_spec x N) as [L U]. unfold sigfig_float. set (e := exponent x) in *. set (d := s - e - 1).
    unfold around. set (r := rint (x * pow10 d)).
    assert (Z.abs r <= 10 ^ s) as B.
    { rewrite Zle_Qle, <- pow10_int by lia.
      assert (Qabs (x * pow10 d) < pow10 s)%Q as A.
      { rewrite Qabs_Qmult, (Qabs_pos (pow10 d)) by (pose proof (pow10_pos d); lra).
        replace s with (e + 1 + d) by (unfold d; lia). rewrite (pow10_plus (e + 1) d). pose proof (pow10_pos d). nra. }
      rewrite (pow10_int s) in A |- * by lia.
      pose proof (rint_nearest (x * pow10 d) (10 ^ s)) as R1. pose proof (rint_nearest (x * pow10 d) (- 10 ^ s)) as R2.
      fold r in R1, R2. rewrite inject_Z_opp in R2.
      assert (Z.abs r = r \/ Z.abs r = - r) as [Er|Er] by lia; rewrite Er; rewrite ?inject_Z_opp;
        revert A R1 R2; set (y := (x * pow10 d)%Q); set (t := inject_Z (10 ^ s)); clearbody y t;
        qabs_cases; lra. }
    destruct (Z.eq_dec (Z.abs r) (10 ^ s)) as [Q|Q].
    + assert (1 < 10 ^ s) as P1 by (apply (Z.pow_gt_1 10 s); lia).
      assert (r = 10 ^ s \/ r = - 10 ^ s) as [Er|Er] by lia; [exists 1, (s + - d) | exists (-1), (s + - d)];
        (split; [lia|]); rewrite Er, ?inject_Z_opp, <- pow10_int, pow10_plus by lia; [|change (inject_Z (-1)) with (-1)%Q];
        change (inject_Z 1) with 1%Q; ring.
    + exists r, (- d). split; [lia|reflexivity].
Qed.

(** Nothing with s significant figures is closer. *)
Lemma sigfig_closest : forall x s z, 1 <= s -> has_sigfigs s z -> (Qabs (x - sigfig_float x s) <= Qabs (x - z))%Q.
Proof.
  intros x s z S (m & k & Hm & Hz). destruct (qeqb x 0) eqn:E.
  - apply qeqb_true in E. pose proof (sigfig_zero x s E) as Z0.
    assert (x - sigfig_float x s == 0)%Q as -> by lra. change (Qabs 0) with 0%Q. apply Qabs_nonneg.
  - assert (~ (x == 0)%Q) as N by (rewrite <- qeqb_true, E; discriminate).
    destruct (exponent_spec x N) as [L U]. unfold sigfig_float. set (e := exponent x) in *. set (d := s - e - 1).
    destruct (Z.le_gt_cases (- d) k) as [K|K].
    + (* z is a multiple of the unit *)
      assert (z == inject_Z (m * 10 ^ (k + d)) * pow10 (- d))%Q as ->.
      { rewrite Hz, inject_Z_mult, <- pow10_int by lia. rewrite <- Qmult_assoc, <- pow10_plus.
        replace (k + d + - d) with k by lia. reflexivity. }
      apply around_nearest.
    + (* z is smaller than the leading power of ten *)
      assert (Qabs z <= pow10 e)%Q as B.
      { rewrite Hz, Qabs_Qmult, (Qabs_pos (pow10 k)) by (pose proof (pow10_pos k); lra).
        assert (Qabs (inject_Z m) <= pow10 s)%Q as M.
        { rewrite pow10_int by lia. change (Qabs (inject_Z m)) with (inject_Z (Z.abs m)). rewrite <- Zle_Qle. lia. }
        pose proof (pow10_pos k). apply Qle_trans with (pow10 s * pow10 k)%Q; [nra|].
        rewrite <- pow10_plus. apply pow10_mono. unfold d in K. lia. }
      (* +-10^e is a multiple of the unit, between z and x *)
      assert (pow10 e == inject_Z (10 ^ (e + d)) * pow10 (- d))%Q as Pe.
      { rewrite <- pow10_int by (unfold d; lia). rewrite <- pow10_plus. replace (e + d + - d) with e by lia. reflexivity. }
      pose proof (around_nearest x d (10 ^ (e + d))) as A1. rewrite <- Pe in A1.
      pose proof (around_nearest x d (- 10 ^ (e + d))) as A2. rewrite inject_Z_opp in A2.
      assert (- inject_Z (10 ^ (e + d)) * pow10 (- d) == - pow10 e)%Q as Pn by (rewrite Pe; ring). rewrite Pn in A2.
      revert A1 A2 B L. set (a := around x d). clearbody a. set (p := pow10 e). clearbody p.
      qabs_cases; lra.
Qed.
Theorem sigfig_nearest : forall x s, 1 <= s -> nearest s x (sigfig_float x s).
Proof. intros x s S. split; [apply sigfig_has, S|]. intros z Hz. apply sigfig_closest; assumption. Qed.
Theorem sigfig_fixed : forall x s, 1 <= s -> has_sigfigs s x -> (sigfig_float x s == x)%Q.
Proof.
  intros x s S H. pose proof (sigfig_closest x s x S H) as C.
  assert (Qabs (x - x) == 0)%Q as E by (assert (x - x == 0)%Q as -> by ring; reflexivity).
  rewrite E in C. apply Qabs_0 in C. lra.
Qed.
Theorem sigfig_error : forall x s, ~ (x == 0)%Q ->
  exists e, (pow10 e <= Qabs x < pow10 (e + 1))%Q /\ (Qabs (x - sigfig_float x s) <= (1#2) * pow10 (e + 1 - s))%Q.
Proof.
  intros x s N. exists (exponent x). split; [apply exponent_spec, N|].
  unfold sigfig_float. pose proof (around_near x (s - exponent x - 1)) as A.
  replace (- (s - exponent x - 1)) with (exponent x + 1 - s) in A by lia. exact A.
Qed.

Lemma exponent_unique : forall x e, (pow10 e <= Qabs x < pow10 (e + 1))%Q -> exponent x = e.
Proof.
  intros x e [L U]. assert (~ (x == 0)%Q) as N.
  { intros E. rewrite E in L. change (Qabs 0) with 0%Q in L. pose proof (pow10_pos e). lra. }
  destruct (exponent_spec x N) as [L' U'].
  assert (exponent x <= e - 1 \/ exponent x = e \/ e <= exponent x - 1) as [H|[H|H]] by lia; [|exact H|].
  - pose proof (pow10_mono (exponent x + 1) e ltac:(lia)). lra.
  - pose proof (pow10_mono (e + 1) (exponent x) ltac:(lia)). lra.
Qed.
Lemma exponent_comp : forall x y, (x == y)%Q -> exponent x = exponent y.
Proof.
  intros x y H. destruct (qeqb x 0) eqn:E.
  - unfold exponent. rewrite E. apply qeqb_true in E. assert (qeqb y 0 = true) as -> by (apply qeqb_true; lra). reflexivity.
  - assert (~ (y == 0)%Q) as N by (rewrite <- H, <- qeqb_true, E; discriminate).
    apply exponent_unique. rewrite H. apply exponent_spec, N.
Qed.
Lemma rint_comp : forall x y, (x == y)%Q -> rint x = rint y.
Proof.
  intros x y H. unfold rint. rewrite (Qfloor_comp x y H). set (f := Qfloor y). clearbody f.
  assert (forall a b c d, (a == c)%Q -> (b == d)%Q -> qltb a b = qltb c d) as X.
  { intros a b c d H1 H2. destruct (qltb a b) eqn:E1, (qltb c d) eqn:E2; qhyp; try reflexivity; lra. }
  rewrite (X (x - inject_Z f) (1#2) (y - inject_Z f) (1#2))%Q by lra.
  rewrite (X (1#2) (x - inject_Z f) (1#2) (y - inject_Z f))%Q by lra. reflexivity.
Qed.
Theorem sigfig_comp : forall x y s, (x == y)%Q -> (sigfig_float x s == sigfig_float y s)%Q.
Proof.
  intros x y s H. unfold sigfig_float, around. rewrite (exponent_comp x y H).
  rewrite (rint_comp (x * pow10 (s - exponent y - 1)) (y * pow10 (s - exponent y - 1))); [reflexivity|]. rewrite H. reflexivity.
Qed.
Theorem sigfig_mono : forall x y s, 1 <= s -> (x <= y)%Q -> (sigfig_float x s <= sigfig_float y s)%Q.
Proof.
  intros x y s S H. destruct (Qlt_le_dec (sigfig_float y s) (sigfig_float x s)) as [G|G]; [|exact G].
  pose proof (sigfig_closest x s _ S (sigfig_has y s S)) as A.
  pose proof (sigfig_closest y s _ S (sigfig_has x s S)) as B.
  assert (x == y)%Q as E.
  { revert A B G. set (a := sigfig_float x s). set (b := sigfig_float y s). clearbody a b. qabs_cases; lra. }
  rewrite (sigfig_comp x y s E) in G. lra.
Qed.
(** A value half way between two numbers goes to the one with an even last digit. *)
Theorem sigfig_tie : forall x s e, ~ (x == 0)%Q -> (pow10 e <= Qabs x < pow10 (e + 1))%Q ->
  (Qabs (x - sigfig_float x s) == (1#2) * pow10 (e + 1 - s))%Q ->
  exists m, (sigfig_float x s == inject_Z m * pow10 (e + 1 - s))%Q /\ Z.even m = true.
Proof.
  intros x s e N B T. apply exponent_unique in B. unfold sigfig_float in *. rewrite B in *.
  unfold around in *. replace (- (s - e - 1)) with (e + 1 - s) in * by lia.
  exists (rint (x * pow10 (s - e - 1))). split; [reflexivity|].
  apply rint_tie_even. pose proof (around_diff x (s - e - 1) (rint (x * pow10 (s - e - 1)))) as D.
  replace (- (s - e - 1)) with (e + 1 - s) in D by lia. rewrite D in T.
  pose proof (pow10_pos (e + 1 - s)). apply (Qmult_inj_r _ _ (pow10 (e + 1 - s))); [lra|exact T].
Qed.
