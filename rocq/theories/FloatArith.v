(** Exactness of double arithmetic: an operation whose exact result is a double
    returns it. *)
From Coq Require Import Floats.SpecFloat Qround Qpower Qfield Bool.
From Verif Require Import Base QLib Floats FloatGeo.
Open Scope Z_scope.

Lemma digits_size p : digits2_pos p = Pos.size p.
Proof. induction p; cbn; congruence. Qed.
Lemma digits_spec p d : 0 < d -> 2 ^ (d - 1) <= Zpos p < 2 ^ d -> Zpos (digits2_pos p) = d.
Proof.
  intros D [L U]. rewrite digits_size. set (s := Zpos (Pos.size p)).
  assert (Zpos p < 2 ^ s) as A by (unfold s; rewrite <- Pos2Z.inj_pow; apply Pos2Z.pos_lt_pos, Pos.size_gt).
  assert (2 ^ s <= 2 * Zpos p) as B.
  { unfold s. rewrite <- Pos2Z.inj_pow. change (2 * Zpos p) with (Zpos p~0). apply Pos2Z.pos_le_pos, Pos.size_le. }
  assert (0 < s) by (unfold s; lia). clearbody s.
  destruct (Z.lt_trichotomy s d) as [X|[X|X]]; [|exact X|].
  - assert (2 ^ s <= 2 ^ (d - 1)) by (apply Z.pow_le_mono_r; lia). lia.
  - assert (2 ^ d <= 2 ^ (s - 1)) by (apply Z.pow_le_mono_r; lia). replace s with (Z.succ (s - 1)) in B by lia.
    rewrite Z.pow_succ_r in B by lia. lia.
Qed.
Lemma digits_bounds p : 2 ^ (Zpos (digits2_pos p) - 1) <= Zpos p < 2 ^ Zpos (digits2_pos p).
Proof.
  rewrite digits_size. split.
  - assert (2 ^ Zpos (Pos.size p) <= 2 * Zpos p) as B.
    { rewrite <- Pos2Z.inj_pow. change (2 * Zpos p) with (Zpos p~0). apply Pos2Z.pos_le_pos, Pos.size_le. }
    replace (Zpos (Pos.size p)) with (Z.succ (Zpos (Pos.size p) - 1)) in B by lia. rewrite Z.pow_succ_r in B by lia. lia.
  - rewrite <- Pos2Z.inj_pow. apply Pos2Z.pos_lt_pos, Pos.size_gt.
Qed.

(** the normal mantissas and exponents used here *)
Definition norm (n : positive) (k : Z) : Prop := 2 ^ 52 <= Zpos n < 2 ^ 53 /\ -1000 <= k <= 900.

Lemma iter_shr p n : SpecFloat.iter_pos shr_1 p (Build_shr_record (Zpos n * 2 ^ Zpos p) false false) = Build_shr_record (Zpos n) false false.
Proof.
  assert (forall j m, 0 <= j -> SpecFloat.iter_pos shr_1 p (Build_shr_record (Zpos m * 2 ^ (j + Zpos p)) false false) = Build_shr_record (Zpos m * 2 ^ j) false false) as H.
  { induction p as [p IH|p IH|]; intros j m J; cbn [SpecFloat.iter_pos].
    - assert (shr_1 (Build_shr_record (Zpos m * 2 ^ (j + Zpos p~1)) false false) = Build_shr_record (Zpos m * 2 ^ (j + Zpos p + Zpos p)) false false) as ->.
      { replace (j + Zpos p~1) with (Z.succ (j + Zpos p + Zpos p)) by lia. rewrite Z.pow_succ_r by lia.
        replace (Zpos m * (2 * 2 ^ (j + Zpos p + Zpos p))) with (2 * (Zpos m * 2 ^ (j + Zpos p + Zpos p))) by lia.
        assert (0 < Zpos m * 2 ^ (j + Zpos p + Zpos p)) as P by (apply Z.mul_pos_pos; [lia|apply Z.pow_pos_nonneg; lia]).
        destruct (Zpos m * 2 ^ (j + Zpos p + Zpos p)); try lia. reflexivity. }
      rewrite IH, IH by lia. reflexivity.
    - replace (j + Zpos p~0) with (j + Zpos p + Zpos p) by lia. rewrite IH, IH by lia. reflexivity.
    - replace (j + 1) with (Z.succ j) by lia. rewrite Z.pow_succ_r by lia.
      replace (Zpos m * (2 * 2 ^ j)) with (2 * (Zpos m * 2 ^ j)) by lia.
      assert (0 < Zpos m * 2 ^ j) as P by (apply Z.mul_pos_pos; [lia|apply Z.pow_pos_nonneg; lia]).
      destruct (Zpos m * 2 ^ j); try lia. reflexivity. }
  specialize (H 0 n (Z.le_refl 0)). rewrite Z.add_0_l, Z.mul_1_r in H. exact H.
Qed.

Lemma fexp_norm n k m e : norm n k -> e <= k -> Zpos m = Zpos n * 2 ^ (k - e) -> fexp 53 1024 (Zpos (digits2_pos m) + e) = k.
Proof.
  intros [N K] E M. rewrite (digits_spec m (53 + (k - e))); [unfold fexp, emin; lia|lia|]. rewrite M.
  replace (53 + (k - e) - 1) with (52 + (k - e)) by lia. rewrite !Z.pow_add_r by lia.
  assert (0 < 2 ^ (k - e)) by (apply Z.pow_pos_nonneg; lia). nia.
Qed.

Lemma round_aux_exact s m e n k : norm n k -> e <= k -> Zpos m = Zpos n * 2 ^ (k - e) ->
  binary_round_aux 53 1024 s (Zpos m) e loc_Exact = S754_finite s n k.
Proof.
  intros N E M. unfold binary_round_aux, shr_fexp. cbn [Zdigits2 shr_record_of_loc]. rewrite (fexp_norm n k m e N E M).
  assert (shr (Build_shr_record (Zpos m) false false) e (k - e) = (Build_shr_record (Zpos n) false false, k)) as ->.
  { unfold shr. rewrite M. destruct (k - e) as [|p|p] eqn:D; [| |lia].
    - rewrite Z.mul_1_r. f_equal. lia.
    - rewrite iter_shr. f_equal. lia. }
  cbn [shr_m loc_of_shr_record round_nearest_even Zdigits2].
  rewrite (fexp_norm n k n k N (Z.le_refl k)) by (rewrite Z.sub_diag, Z.mul_1_r; reflexivity). rewrite Z.sub_diag. cbn [shr shr_m].
  destruct N as [_ K]. assert ((k <=? 1024 - 53) = true) as -> by (apply Z.leb_le; lia). reflexivity.
Qed.

Lemma shift_pos_mul d m : Zpos (shift_pos d m) = Zpos m * 2 ^ Zpos d.
Proof. rewrite shift_pos_correct. rewrite <- Z.pow_pos_fold || idtac. rewrite Z.mul_comm. reflexivity. Qed.

(** powers of two *)
Definition pw (e : Z) : Q := Qpower 2 e.
Lemma pw_pos e : (0 < pw e)%Q.
Proof.
  apply Qnot_le_lt. intros H. assert (0 <= pw e)%Q as P by (apply Qpower_pos; discriminate).
  assert (pw e == 0)%Q as Z by lra. apply (Qpower_not_0 2 e); [discriminate|exact Z].
Qed.
Lemma pw_add a b : (pw (a + b) == pw a * pw b)%Q.
Proof. apply Qpower_plus. discriminate. Qed.
Lemma pw_Z e : 0 <= e -> (pw e == inject_Z (2 ^ e))%Q.
Proof. intros E. rewrite Zpower_Qpower by exact E. reflexivity. Qed.
Lemma dyadic_pw m e : (dyadic m e == inject_Z m * pw e)%Q.
Proof.
  unfold dyadic. destruct (e <? 0) eqn:E; [apply Z.ltb_lt in E|apply Z.ltb_ge in E].
  - assert (inject_Z (2 ^ (- e)) * pw e == 1)%Q as I by (rewrite <- pw_Z by lia; rewrite <- pw_add, Z.add_opp_diag_l; reflexivity).
    assert (0 < 2 ^ (- e)) as P by (apply Z.pow_pos_nonneg; lia).
    assert ((m # Z.to_pos (2 ^ (- e))) * inject_Z (2 ^ (- e)) == inject_Z m)%Q as M.
    { unfold Qeq, Qmult, inject_Z. cbn. rewrite Pos.mul_1_r, Z2Pos.id by exact P. lia. }
    rewrite <- M. transitivity ((m # Z.to_pos (2 ^ (- e))) * (inject_Z (2 ^ (- e)) * pw e))%Q; [rewrite I|]; ring.
  - rewrite pw_Z, inject_Z_mult by exact E. reflexivity.
Qed.
Lemma scaled a e b k : (inject_Z a * pw e == inject_Z b * pw k)%Q -> e <= k -> a = b * 2 ^ (k - e).
Proof.
  intros H E. replace k with (k - e + e) in H by lia. rewrite pw_add in H. rewrite (pw_Z (k - e)) in H by lia. pose proof (pw_pos e) as P.
  assert (inject_Z a == inject_Z (b * 2 ^ (k - e)))%Q as X.
  { rewrite inject_Z_mult. apply (Qmult_inj_r _ _ (pw e)); [intros Z; rewrite Z in P; discriminate|]. rewrite H. ring. }
  exact (proj1 (inject_Z_injective _ _) X).
Qed.
Lemma unscaled a e b k : e <= k -> a = b * 2 ^ (k - e) -> (inject_Z a * pw e == inject_Z b * pw k)%Q.
Proof.
  intros E ->. replace k with (k - e + e) at 2 by lia. rewrite inject_Z_mult, pw_add, (pw_Z (k - e)) by lia. ring.
Qed.

(** [x] is a zero or a normal double of value [q] *)
Definition isf (x : f64) (q : Q) : Prop :=
  match x with
  | S754_zero _ => (q == 0)%Q
  | S754_finite s n k => norm n k /\ (q == inject_Z (cond_Zopp s (Zpos n)) * pw k)%Q
  | _ => False
  end.
Definition repr (q : Q) : Prop := exists x, isf x q.

Lemma isf_means x q : isf x q -> means x q.
Proof.
  destruct x as [s| | |s n k]; cbn; try contradiction.
  - intros E. exists 0%Q. split; [reflexivity|symmetry; exact E].
  - intros [_ E]. eexists. split; [reflexivity|]. rewrite dyadic_pw, E. destruct s; reflexivity.
Qed.
Lemma isf_eq x q q' : (q == q')%Q -> isf x q -> isf x q'.
Proof. intros E. destruct x; cbn; try tauto; rewrite E; tauto. Qed.
Lemma repr_eq q q' : (q == q')%Q -> repr q -> repr q'.
Proof. intros E (x & X). exists x. exact (isf_eq x q q' E X). Qed.
Lemma cond_nz s n : cond_Zopp s (Zpos n) <> 0.
Proof. destruct s; discriminate. Qed.
Lemma mul_pw_nz z e : z <> 0 -> ~ (inject_Z z * pw e == 0)%Q.
Proof.
  intros Z H. pose proof (pw_pos e). apply Qmult_integral in H. destruct H as [H|H]; [|rewrite H in *; discriminate].
  apply Z. exact (proj1 (inject_Z_injective z 0) H).
Qed.

(** Rounding an exact value. *)
Lemma round_exact s m e n k : norm n k -> (inject_Z (Zpos m) * pw e == inject_Z (Zpos n) * pw k)%Q ->
  binary_round 53 1024 s m e = S754_finite s n k.
Proof.
  intros N V. unfold binary_round. destruct (Z.le_gt_cases e k) as [E|E].
  - pose proof (scaled _ _ _ _ V E) as M. rewrite (fexp_norm n k m e N E M). unfold shl_align.
    destruct (k - e) eqn:D; try lia; rewrite <- D in M; apply (round_aux_exact s m e n k N E M).
  - assert (Zpos n = Zpos m * 2 ^ (e - k)) as M by (apply scaled; [symmetry; exact V|lia]).
    assert (Zpos (digits2_pos m) + e = 53 + k) as D.
    { destruct N as [N K]. assert (Zpos (digits2_pos n) = 53) as Dn by (apply digits_spec; [lia|exact N]).
      pose proof (digits_bounds m) as B. set (d := Zpos (digits2_pos m)) in *. assert (0 < d) by (unfold d; lia).
      assert (Zpos (digits2_pos n) = d + (e - k)) as Dn'.
      { apply digits_spec; [lia|]. rewrite M. replace (d + (e - k) - 1) with (d - 1 + (e - k)) by lia. rewrite !Z.pow_add_r by lia.
        assert (0 < 2 ^ (e - k)) by (apply Z.pow_pos_nonneg; lia). nia. }
      lia. }
    rewrite D. assert (fexp 53 1024 (53 + k) = k) as -> by (unfold fexp, emin; destruct N; lia).
    unfold shl_align. destruct (k - e) as [|p|p] eqn:F; try lia. assert (shift_pos p m = n) as ->.
    { apply Pos2Z.inj. rewrite shift_pos_mul, M. f_equal. f_equal. lia. }
    apply round_aux_exact; [exact N|lia|]. rewrite Z.sub_diag, Z.mul_1_r. reflexivity.
Qed.
Lemma normalize_exact m e q : (q == inject_Z m * pw e)%Q -> repr q -> isf (binary_normalize 53 1024 m e false) q.
Proof.
  intros V (x & X). destruct m as [|m|m]; [cbn; rewrite V; ring| |].
  - destruct x as [s| | |s n k]; cbn in X; try contradiction.
    + exfalso. apply (mul_pw_nz (Zpos m) e); [discriminate|]. rewrite <- V. exact X.
    + destruct X as [N X]. destruct s; cbn [cond_Zopp] in X.
      * exfalso. assert (0 < inject_Z (Zpos m) * pw e)%Q by (apply Qmult_lt_0_compat; [reflexivity|apply pw_pos]).
        pose proof (pw_pos k). change (inject_Z (- Zpos n)) with (inject_Z (Zneg n)) in X.
        assert (inject_Z (Zpos n) * pw k > 0)%Q by (apply Qmult_lt_0_compat; [reflexivity|apply pw_pos]).
        change (inject_Z (Zneg n)) with (- inject_Z (Zpos n))%Q in X. lra.
      * cbn [binary_normalize]. rewrite (round_exact false m e n k N) by (rewrite <- V, X; reflexivity). split; [exact N|exact X].
  - destruct x as [s| | |s n k]; cbn in X; try contradiction.
    + exfalso. apply (mul_pw_nz (Zneg m) e); [discriminate|]. rewrite <- V. exact X.
    + destruct X as [N X]. change (inject_Z (Zneg m)) with (- inject_Z (Zpos m))%Q in V. destruct s; cbn [cond_Zopp] in X.
      * change (inject_Z (- Zpos n)) with (- inject_Z (Zpos n))%Q in X.
        cbn [binary_normalize]. rewrite (round_exact true m e n k N) by lra. split; [exact N|exact X].
      * exfalso. assert (0 < inject_Z (Zpos m) * pw e)%Q by (apply Qmult_lt_0_compat; [reflexivity|apply pw_pos]).
        assert (inject_Z (Zpos n) * pw k > 0)%Q by (apply Qmult_lt_0_compat; [reflexivity|apply pw_pos]). lra.
Qed.

Lemma align_value m e e' : e' <= e -> (inject_Z (Zpos (fst (shl_align m e e'))) * pw e' == inject_Z (Zpos m) * pw e)%Q.
Proof.
  intros E. apply unscaled; [exact E|]. unfold shl_align. destruct (e' - e) as [|p|p] eqn:D; cbn [fst].
  - replace (e - e') with 0 by lia. rewrite Z.mul_1_r. reflexivity.
  - lia.
  - rewrite shift_pos_mul. f_equal. f_equal. lia.
Qed.
Lemma cond_value s z : (inject_Z (cond_Zopp s z) == (if s then - inject_Z z else inject_Z z))%Q.
Proof. destruct s; cbn [cond_Zopp]; [rewrite inject_Z_opp; reflexivity|reflexivity]. Qed.

Lemma isf_add x y a b : isf x a -> isf y b -> repr (a + b) -> isf (fadd x y) (a + b).
Proof.
  intros X Y R. unfold fadd. destruct x as [sx| | |sx nx kx]; try contradiction; destruct y as [sy| | |sy ny ky]; try contradiction.
  - cbn in X, Y. cbn [SFadd]. destruct (Bool.eqb sx sy); cbn; rewrite X, Y; ring.
  - cbn [SFadd]. apply (isf_eq _ b); [|exact Y]. cbn in X. rewrite X. ring.
  - cbn [SFadd]. apply (isf_eq _ a); [|exact X]. cbn in Y. rewrite Y. ring.
  - destruct X as [Nx X], Y as [Ny Y]. cbn [SFadd]. apply normalize_exact; [|exact R].
    rewrite inject_Z_plus, Qmult_plus_distr_l, !cond_value.
    pose proof (align_value nx kx (Z.min kx ky) (Z.le_min_l _ _)) as Ax. pose proof (align_value ny ky (Z.min kx ky) (Z.le_min_r _ _)) as Ay.
    rewrite cond_value in X, Y. rewrite X, Y. destruct sx, sy; lra.
Qed.
Lemma isf_opp x a : isf x a -> isf (fneg x) (- a).
Proof.
  destruct x as [s| | |s n k]; cbn; try contradiction; [intros ->; reflexivity|]. intros [N E]. split; [exact N|]. rewrite E, !cond_value. destruct s; cbn; ring.
Qed.
Lemma sub_add x y a b : isf x a -> isf y b -> fsub x y = fadd x (fneg y).
Proof.
  destruct x as [sx| | |sx nx kx]; cbn; try contradiction; destruct y as [sy| | |sy ny ky]; cbn; try contradiction; intros _ _; try reflexivity.
  unfold fsub, fadd, fneg. cbn [SFsub SFadd SFopp]. f_equal. unfold Z.sub. f_equal. destruct sy; cbn; try reflexivity.
Qed.
Lemma isf_sub x y a b : isf x a -> isf y b -> repr (a - b) -> isf (fsub x y) (a - b).
Proof. intros X Y R. rewrite (sub_add x y a b X Y). apply isf_add; [exact X|apply isf_opp, Y|exact R]. Qed.
Lemma isf_abs x a : isf x a -> isf (fabs x) (qabs a).
Proof.
  unfold qabs. destruct x as [s| | |s n k]; cbn; try contradiction.
  - intros E. qsplit; rewrite E in *; lra.
  - intros [N E]. split; [exact N|]. rewrite cond_value in E. assert (0 < inject_Z (Zpos n) * pw k)%Q by (apply Qmult_lt_0_compat; [reflexivity|apply pw_pos]).
    cbn [cond_Zopp]. destruct s; qsplit; lra.
Qed.

(** comparisons *)
Lemma mag_lt n k n' k' : norm n k -> norm n' k' -> k < k' -> (inject_Z (Zpos n) * pw k < inject_Z (Zpos n') * pw k')%Q.
Proof.
  intros [N _] [N' _] K. replace k' with (k' - k + k) by lia. rewrite pw_add, (pw_Z (k' - k)) by lia. pose proof (pw_pos k) as P.
  assert (inject_Z (Zpos n) < inject_Z (Zpos n') * inject_Z (2 ^ (k' - k)))%Q as H.
  { rewrite <- inject_Z_mult, <- Zlt_Qlt. assert (2 ^ 1 <= 2 ^ (k' - k)) by (apply Z.pow_le_mono_r; lia). lia. }
  apply (Qmult_lt_compat_r _ _ (pw k) P) in H. lra.
Qed.
Lemma mag_compare n k n' k' : norm n k -> norm n' k' ->
  (match Z.compare k k' with Eq => Pos.compare_cont Eq n n' | c => c end = (inject_Z (Zpos n) * pw k ?= inject_Z (Zpos n') * pw k')%Q).
Proof.
  intros N N'. symmetry. destruct (Z.compare_spec k k') as [E|E|E].
  - subst. change (Pos.compare_cont Eq n n') with (Pos.compare n n'). pose proof (pw_pos k') as P. destruct (Pos.compare_spec n n') as [F|F|F].
    + subst. apply (proj1 (Qeq_alt _ _)). reflexivity.
    + apply (proj1 (Qlt_alt _ _)). apply Qmult_lt_compat_r; [exact P|]. rewrite <- Zlt_Qlt. exact F.
    + apply (proj1 (Qgt_alt _ _)). apply Qmult_lt_compat_r; [exact P|]. rewrite <- Zlt_Qlt. exact F.
  - apply (proj1 (Qlt_alt _ _)), mag_lt; assumption.
  - apply (proj1 (Qgt_alt _ _)), mag_lt; assumption.
Qed.
Lemma isf_compare x y a b : isf x a -> isf y b -> SFcompare x y = Some (a ?= b)%Q.
Proof.
  intros X Y.
  assert (forall n k, 0 < inject_Z (Zpos n) * pw k)%Q as P by (intros; apply Qmult_lt_0_compat; [reflexivity|apply pw_pos]).
  destruct x as [sx| | |sx nx kx]; try contradiction; destruct y as [sy| | |sy ny ky]; try contradiction; cbn in X, Y; cbn [SFcompare]; f_equal.
  - rewrite X, Y. reflexivity.
  - destruct Y as [_ Y]. rewrite cond_value in Y. symmetry. pose proof (P ny ky). destruct sy; cbv iota in Y; [apply (proj1 (Qgt_alt _ _))|apply (proj1 (Qlt_alt _ _))]; lra.
  - destruct X as [_ X]. rewrite cond_value in X. symmetry. pose proof (P nx kx). destruct sx; cbv iota in X; [apply (proj1 (Qlt_alt _ _))|apply (proj1 (Qgt_alt _ _))]; lra.
  - destruct X as [Nx X], Y as [Ny Y]. rewrite cond_value in X, Y. pose proof (P nx kx). pose proof (P ny ky). pose proof (mag_compare nx kx ny ky Nx Ny) as C.
    destruct sx, sy; cbv iota in X, Y.
    + assert (b ?= a = (inject_Z (Zpos nx) * pw kx ?= inject_Z (Zpos ny) * pw ky))%Q as E.
      { rewrite <- C in *. destruct (Qcompare (inject_Z (Zpos nx) * pw kx) (inject_Z (Zpos ny) * pw ky)) eqn:F; rewrite C.
        - apply (proj2 (Qeq_alt _ _)) in F. apply (proj1 (Qeq_alt _ _)). lra.
        - apply (proj2 (Qlt_alt _ _)) in F. apply (proj1 (Qlt_alt _ _)). lra.
        - apply (proj2 (Qgt_alt _ _)) in F. apply (proj1 (Qgt_alt _ _)). lra. }
      rewrite <- C in E. rewrite <- Qcompare_antisym in E. destruct (Z.compare kx ky); rewrite <- (CompOpp_involutive (a ?= b)%Q), E; reflexivity.
    + symmetry. apply (proj1 (Qlt_alt _ _)). lra.
    + symmetry. apply (proj1 (Qgt_alt _ _)). lra.
    + assert (a ?= b = (inject_Z (Zpos nx) * pw kx ?= inject_Z (Zpos ny) * pw ky))%Q as E.
      { destruct (Qcompare (inject_Z (Zpos nx) * pw kx) (inject_Z (Zpos ny) * pw ky)) eqn:F.
        - apply (proj2 (Qeq_alt _ _)) in F. apply (proj1 (Qeq_alt _ _)). lra.
        - apply (proj2 (Qlt_alt _ _)) in F. apply (proj1 (Qlt_alt _ _)). lra.
        - apply (proj2 (Qgt_alt _ _)) in F. apply (proj1 (Qgt_alt _ _)). lra. }
      rewrite E, <- C. destruct (Z.compare kx ky); reflexivity.
Qed.
Lemma isf_lt x y a b : isf x a -> isf y b -> flt x y = qltb a b.
Proof.
  intros X Y. unfold flt, SFltb. rewrite (isf_compare x y a b X Y). destruct (a ?= b)%Q eqn:E.
  - apply (proj2 (Qeq_alt _ _)) in E. symmetry. apply qltb_false. lra.
  - apply (proj2 (Qlt_alt _ _)) in E. symmetry. apply qltb_true. exact E.
  - apply (proj2 (Qgt_alt _ _)) in E. symmetry. apply qltb_false. lra.
Qed.
Lemma isf_le x y a b : isf x a -> isf y b -> fle x y = qleb a b.
Proof.
  intros X Y. unfold fle, SFleb. rewrite (isf_compare x y a b X Y). destruct (a ?= b)%Q eqn:E.
  - apply (proj2 (Qeq_alt _ _)) in E. symmetry. apply qleb_true. lra.
  - apply (proj2 (Qlt_alt _ _)) in E. symmetry. apply qleb_true. lra.
  - apply (proj2 (Qgt_alt _ _)) in E. symmetry. apply qleb_false. lra.
Qed.
Lemma isf_eqb x y a b : isf x a -> isf y b -> feq x y = qeqb a b.
Proof.
  intros X Y. unfold feq, SFeqb. rewrite (isf_compare x y a b X Y). destruct (a ?= b)%Q eqn:E.
  - apply (proj2 (Qeq_alt _ _)) in E. symmetry. apply qeqb_true. exact E.
  - apply (proj2 (Qlt_alt _ _)) in E. symmetry. apply not_true_iff_false. intros T. apply qeqb_true in T. lra.
  - apply (proj2 (Qgt_alt _ _)) in E. symmetry. apply not_true_iff_false. intros T. apply qeqb_true in T. lra.
Qed.

(** products and quotients *)
Lemma mag_pos n k : (0 < inject_Z (Zpos n) * pw k)%Q.
Proof. apply Qmult_lt_0_compat; [reflexivity|apply pw_pos]. Qed.
Lemma repr_mag q s v : repr q -> (0 < v)%Q -> (q == if s : bool then - v else v)%Q -> exists n k, norm n k /\ (v == inject_Z (Zpos n) * pw k)%Q.
Proof.
  intros (x & X) V E. destruct x as [t| | |t n k]; cbn [isf] in X; try contradiction.
  - exfalso. destruct s; lra.
  - destruct X as [N X]. rewrite cond_value in X. pose proof (mag_pos n k). exists n, k. split; [exact N|]. destruct s, t; lra.
Qed.
Lemma isf_mul x y a b : isf x a -> isf y b -> repr (a * b) -> isf (fmul x y) (a * b).
Proof.
  intros X Y R. unfold fmul. destruct x as [sx| | |sx nx kx]; try contradiction; destruct y as [sy| | |sy ny ky]; try contradiction; cbn [isf] in X, Y; cbn [SFmul].
  - cbn [isf]. rewrite X. ring.
  - cbn [isf]. rewrite X. ring.
  - cbn [isf]. rewrite Y. ring.
  - destruct X as [Nx X], Y as [Ny Y]. rewrite cond_value in X, Y.
    set (v := (inject_Z (Zpos (nx * ny)) * pw (kx + ky))%Q).
    assert (v == (inject_Z (Zpos nx) * pw kx) * (inject_Z (Zpos ny) * pw ky))%Q as V.
    { unfold v. rewrite pw_add, Pos2Z.inj_mul, inject_Z_mult. ring. }
    assert (a * b == if xorb sx sy then - v else v)%Q as AB by (rewrite X, Y; destruct sx, sy; cbn [xorb]; rewrite V; ring).
    assert (0 < v)%Q as P by apply mag_pos.
    destruct (repr_mag _ _ v R P AB) as (n & k & N & E). assert (kx + ky <= k) as K.
    { destruct (Z.le_gt_cases (kx + ky) k) as [|G]; [assumption|exfalso].
      assert (Zpos n = Zpos (nx * ny) * 2 ^ (kx + ky - k)) as M by (apply scaled; [symmetry; exact E|lia]).
      destruct Nx as [Nx _], Ny as [Ny _], N as [N _]. assert (0 < 2 ^ (kx + ky - k)) by (apply Z.pow_pos_nonneg; lia).
      rewrite Pos2Z.inj_mul in M. nia. }
    rewrite (round_aux_exact _ _ _ n k N K (scaled _ _ _ _ E K)). split; [exact N|]. rewrite AB, cond_value. destruct (xorb sx sy); rewrite E; ring.
Qed.

Lemma isf_div x y a b : isf x a -> isf y b -> ~ (b == 0)%Q -> repr (a / b) -> isf (fdiv x y) (a / b).
Proof.
  intros X Y B R. unfold fdiv. destruct x as [sx| | |sx nx kx]; try contradiction; destruct y as [sy| | |sy ny ky]; try contradiction; cbn [isf] in X, Y; cbn [SFdiv]; try contradiction.
  - cbn [isf]. rewrite X. field. exact B.
  - destruct X as [Nx X], Y as [Ny Y]. rewrite cond_value in X, Y.
    pose proof (mag_pos nx kx) as Px. pose proof (mag_pos ny ky) as Py.
    set (u := (inject_Z (Zpos nx) * pw kx)%Q) in *. set (w := (inject_Z (Zpos ny) * pw ky)%Q) in *.
    assert (a / b == if xorb sx sy then - (u / w) else u / w)%Q as AB.
    { rewrite X, Y. unfold u, w in *. destruct sx, sy; cbn [xorb]; field; [split|split|split|split]; first [apply Qnot_eq_sym, Qlt_not_eq, pw_pos|discriminate|idtac]. }
    assert (0 < u / w)%Q as P by (apply Qlt_shift_div_l; [exact Py|lra]).
    destruct (repr_mag _ _ _ R P AB) as (n & k & N & E).
    assert (inject_Z (Zpos nx) * pw kx == inject_Z (Zpos n * Zpos ny) * pw (k + ky))%Q as V.
    { assert (u == (u / w) * w)%Q as F by (field; lra). fold u. rewrite F, E. unfold w. rewrite inject_Z_mult, pw_add. ring. }
    assert (52 + k <= kx - ky <= 53 + k) as K.
    { destruct Nx as [Nx _], Ny as [Ny _], N as [N _]. split.
      - destruct (Z.le_gt_cases (52 + k) (kx - ky)) as [|G]; [assumption|exfalso].
        assert (Zpos nx = Zpos n * Zpos ny * 2 ^ (k + ky - kx) \/ Zpos n * Zpos ny = Zpos nx * 2 ^ (kx - (k + ky))) as [M|M].
        { destruct (Z.le_gt_cases kx (k + ky)); [left; apply scaled; [exact V|lia]|right; apply scaled; [symmetry; exact V|lia]]. }
        + destruct (Z.le_gt_cases kx (k + ky)) as [L|L].
          * assert (0 < 2 ^ (k + ky - kx)) by (apply Z.pow_pos_nonneg; lia). nia.
          * rewrite (Z.pow_neg_r 2) in M by lia. lia.
        + assert (2 ^ (kx - (k + ky)) <= 2 ^ 51) by (apply Z.pow_le_mono_r; lia). nia.
      - destruct (Z.le_gt_cases (kx - ky) (53 + k)) as [|G]; [assumption|exfalso].
        assert (Zpos n * Zpos ny = Zpos nx * 2 ^ (kx - (k + ky))) as M by (apply scaled; [symmetry; exact V|lia]).
        assert (2 ^ 54 <= 2 ^ (kx - (k + ky))) by (apply Z.pow_le_mono_r; lia). nia. }
    unfold SFdiv_core_binary. cbn [Zdigits2].
    assert (Zpos (digits2_pos nx) = 53) as -> by (apply digits_spec; [lia|apply Nx]).
    assert (Zpos (digits2_pos ny) = 53) as -> by (apply digits_spec; [lia|apply Ny]).
    assert (Z.min (fexp 53 1024 (53 + kx - (53 + ky))) (kx - ky) = kx - ky - 53) as -> by (unfold fexp, emin; destruct N; lia).
    replace (kx - ky - (kx - ky - 53)) with 53 by lia. rewrite Z.shiftl_mul_pow2 by lia.
    assert (Zpos nx * 2 ^ 53 = Zpos n * 2 ^ (k - (kx - ky - 53)) * Zpos ny) as M.
    { assert (Zpos nx * 2 ^ 53 = Zpos n * Zpos ny * 2 ^ (k + ky - (kx - 53))) as M.
      { apply scaled; [|lia]. rewrite <- V. apply unscaled; [lia|]. replace (kx - (kx - 53)) with 53 by lia. reflexivity. }
      rewrite M. replace (k + ky - (kx - 53)) with (k - (kx - ky - 53)) by lia. ring. }
    rewrite M. assert (Z.div_eucl (Zpos n * 2 ^ (k - (kx - ky - 53)) * Zpos ny) (Zpos ny) = (Zpos n * 2 ^ (k - (kx - ky - 53)), 0)) as ->.
    { rewrite (surjective_pairing (Z.div_eucl _ _)). f_equal; [apply Z.div_mul; discriminate|apply Z.mod_mul; discriminate]. }
    assert (new_location (Zpos ny) 0 = loc_Exact) as -> by (unfold new_location; destruct (Z.even (Zpos ny)); reflexivity).
    assert (0 < Zpos n * 2 ^ (k - (kx - ky - 53))) as Q by (apply Z.mul_pos_pos; [lia|apply Z.pow_pos_nonneg; lia]).
    destruct (Zpos n * 2 ^ (k - (kx - ky - 53))) as [|m|m] eqn:D; try lia.
    rewrite (round_aux_exact _ m _ n k N); [|lia|symmetry; exact D]. split; [exact N|]. rewrite AB, cond_value. destruct (xorb sx sy); rewrite E; ring.
Qed.

(** integers and their scaled versions *)
Lemma int_repr z e : Z.abs z < 2 ^ 53 -> -900 <= e <= 800 -> repr (inject_Z z * pw e).
Proof.
  intros Z E. destruct (Z.eq_dec z 0) as [->|NZ]; [exists (S754_zero false); cbn [isf]; ring|].
  assert (exists p s, z = cond_Zopp s (Zpos p)) as (p & s & ->) by (destruct z as [|p|p]; [contradiction|exists p, false; reflexivity|exists p, true; reflexivity]).
  assert (Zpos p < 2 ^ 53) as P by (destruct s; cbn [cond_Zopp] in Z; lia).
  pose proof (digits_bounds p) as D. set (d := Zpos (digits2_pos p)) in *. assert (0 < d) as D0 by (unfold d; lia).
  assert (d <= 53) as D1.
  { destruct (Z.le_gt_cases d 53) as [|G]; [assumption|]. assert (2 ^ 53 <= 2 ^ (d - 1)) by (apply Z.pow_le_mono_r; lia). lia. }
  assert (0 < Zpos p * 2 ^ (53 - d)) as M by (apply Z.mul_pos_pos; [lia|apply Z.pow_pos_nonneg; lia]).
  destruct (Zpos p * 2 ^ (53 - d)) as [|n|n] eqn:F; try lia.
  exists (S754_finite s n (e - (53 - d))). split.
  - split; [|lia]. rewrite <- F. replace (2 ^ 53) with (2 ^ d * 2 ^ (53 - d)) by (rewrite <- Z.pow_add_r by lia; f_equal; lia).
    replace (2 ^ 52) with (2 ^ (d - 1) * 2 ^ (53 - d)) by (rewrite <- Z.pow_add_r by lia; f_equal; lia).
    assert (0 < 2 ^ (53 - d)) by (apply Z.pow_pos_nonneg; lia). nia.
  - rewrite !cond_value. assert (inject_Z (Zpos n) * pw (e - (53 - d)) == inject_Z (Zpos p) * pw e)%Q as U.
    { apply unscaled; [lia|]. rewrite <- F. f_equal. f_equal. lia. }
    destruct s; lra.
Qed.
Lemma isf_num m e : repr (inject_Z m * pw e) -> isf (fnum m e) (inject_Z m * pw e).
Proof. intros R. apply normalize_exact; [reflexivity|exact R]. Qed.
Lemma isf_int z : Z.abs z < 2 ^ 53 -> isf (fint z) (inject_Z z).
Proof.
  intros Z. apply (isf_eq _ (inject_Z z * pw 0)); [change (pw 0) with 1%Q; ring|]. apply isf_num, int_repr; [exact Z|lia].
Qed.

(** the remainder *)
Lemma qmod_unique a b r (f : Z) : (0 < b)%Q -> (0 <= r < b)%Q -> (a == b * inject_Z f + r)%Q -> (qmod a b == r)%Q.
Proof.
  intros B R E. unfold qmod. assert (Qfloor (a / b) = f) as ->.
  { assert (a / b == inject_Z f + r / b)%Q as D by (rewrite E; field; lra).
    assert (0 <= r / b)%Q by (apply Qle_shift_div_l; lra). assert (r / b < 1)%Q by (apply Qlt_shift_div_r; lra).
    rewrite D. apply Z.le_antisymm.
    - assert (inject_Z (Qfloor (inject_Z f + r / b)) <= inject_Z f + r / b)%Q as L by apply Qfloor_le.
      assert (inject_Z (Qfloor (inject_Z f + r / b)) < inject_Z (f + 1))%Q as L' by (rewrite inject_Z_plus; change (inject_Z 1) with 1%Q; lra).
      rewrite <- Zlt_Qlt in L'. lia.
    - rewrite <- (Qfloor_Z f) at 1. apply Qfloor_resp_le. lra. }
  rewrite E. ring.
Qed.
Lemma isf_mod x y a b : isf x a -> isf y b -> (0 < b)%Q -> repr (qmod a b) -> repr (qmod a b - b) -> isf (py_mod x y) (qmod a b).
Proof.
  intros X Y B R R'. assert (isf (fint 0) 0) as Z0 by (apply isf_int; reflexivity).
  unfold py_mod. rewrite (isf_lt y (fint 0) b 0 Y Z0). assert (qltb b 0 = false) as -> by (apply qltb_false; lra).
  destruct x as [sx| | |sx nx kx]; try contradiction; destruct y as [sy| | |sy ny ky]; try contradiction; cbn [isf] in X, Y.
  - exfalso. lra.
  - cbn [fmod]. change (feq (S754_zero sx) (fint 0)) with true. cbn [isf]. apply (qmod_unique a b 0 0); [exact B|lra|]. rewrite X. ring.
  - exfalso. lra.
  - destruct X as [Nx X], Y as [Ny Y]. rewrite cond_value in X, Y. assert (sy = false) as -> by (destruct sy; [|reflexivity]; pose proof (mag_pos ny ky); lra).
    cbn [fmod]. cbv beta zeta. set (e := Z.min kx ky). set (A := Zpos nx * 2 ^ (kx - e)). set (D := Zpos ny * 2 ^ (ky - e)).
    assert (inject_Z A * pw e == inject_Z (Zpos nx) * pw kx)%Q as VA by (apply unscaled; [unfold e; lia|reflexivity]).
    assert (inject_Z D * pw e == inject_Z (Zpos ny) * pw ky)%Q as VD by (apply unscaled; [unfold e; lia|reflexivity]).
    assert (0 < D) as D0 by (apply Z.mul_pos_pos; [lia|apply Z.pow_pos_nonneg; unfold e; lia]).
    pose proof (Z.mod_pos_bound A D D0) as M. pose proof (Z.div_mod A D ltac:(lia)) as DM. set (r := A mod D) in *. set (f := A / D) in *.
    assert (inject_Z A == inject_Z D * inject_Z f + inject_Z r)%Q as DQ by (rewrite DM at 1; rewrite inject_Z_plus, inject_Z_mult; reflexivity).
    pose proof (pw_pos e) as P. clearbody A D r f.
    assert (0 <= inject_Z r)%Q as r0 by (change 0%Q with (inject_Z 0); rewrite <- Zle_Qle; lia).
    assert (inject_Z r < inject_Z D)%Q as r1 by (rewrite <- Zlt_Qlt; lia).
    assert (b == inject_Z D * pw e)%Q as Eb by (rewrite Y, VD; reflexivity).
    assert (a == (if sx then - (inject_Z A * pw e) else inject_Z A * pw e))%Q as Ea by (rewrite X; destruct sx; rewrite VA; ring).
    destruct (r =? 0) eqn:F; [apply Z.eqb_eq in F; subst r|apply Z.eqb_neq in F].
    + change (feq (S754_zero sx) (fint 0)) with true. cbn [isf].
      apply (qmod_unique a b 0 (if sx then - f else f)); [exact B|lra|]. rewrite Ea, Eb. destruct sx; [rewrite inject_Z_opp|]; rewrite DQ; change (inject_Z 0) with 0%Q; ring.
    + assert (0 < inject_Z r)%Q as r2 by (change 0%Q with (inject_Z 0); rewrite <- Zlt_Qlt; lia).
      assert (0 < inject_Z r * pw e)%Q as r3 by (apply Qmult_lt_0_compat; assumption).
      assert (inject_Z r * pw e < inject_Z D * pw e)%Q as r4 by (apply Qmult_lt_compat_r; assumption).
      destruct sx; cbn [cond_Zopp].
      * assert (qmod a b == b - inject_Z r * pw e)%Q as Em.
        { apply (qmod_unique a b _ (- f - 1)); [exact B|lra|]. rewrite Ea, Eb, DQ. unfold Z.sub. rewrite inject_Z_plus, inject_Z_opp. change (inject_Z (-(1))) with (-(1))%Q. ring. }
        assert (isf (fnum (- r) e) (qmod a b - b)) as I.
        { apply (isf_eq _ (inject_Z (- r) * pw e)); [rewrite Em, inject_Z_opp; ring|]. apply isf_num. apply (repr_eq (qmod a b - b)); [rewrite Em, inject_Z_opp; ring|exact R']. }
        rewrite (isf_eqb _ _ _ _ I Z0), (isf_lt _ _ _ _ I Z0).
        assert (qeqb (qmod a b - b) 0 = false) as -> by (apply not_true_iff_false; intros T; apply qeqb_true in T; lra).
        assert (qltb (qmod a b - b) 0 = true) as -> by (apply qltb_true; lra). cbn [Bool.eqb].
        apply (isf_eq _ (qmod a b - b + b)); [ring|]. apply isf_add; [exact I| |].
        -- split; [exact Ny|]. rewrite Y, cond_value. reflexivity.
        -- apply (repr_eq (qmod a b)); [ring|exact R].
      * assert (qmod a b == inject_Z r * pw e)%Q as Em by (apply (qmod_unique a b _ f); [exact B|lra|]; rewrite Ea, Eb, DQ; ring).
        assert (isf (fnum r e) (qmod a b)) as I.
        { apply (isf_eq _ (inject_Z r * pw e)); [symmetry; exact Em|]. apply isf_num. apply (repr_eq (qmod a b)); [exact Em|exact R]. }
        rewrite (isf_eqb _ _ _ _ I Z0), (isf_lt _ _ _ _ I Z0).
        assert (qeqb (qmod a b) 0 = false) as -> by (apply not_true_iff_false; intros T; apply qeqb_true in T; lra).
        assert (qltb (qmod a b) 0 = false) as -> by (apply qltb_false; lra). cbn [Bool.eqb]. exact I.
Qed.
