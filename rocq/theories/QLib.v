(** Rational arithmetic lemmas and tactics. *)
From Verif Require Import Base.
Open Scope Q_scope.

Lemma qeqb_spec a b : reflect (a == b) (qeqb a b).
Proof. apply iff_reflect. unfold qeqb. symmetry. apply Qeq_bool_iff. Qed.
Lemma qleb_spec a b : reflect (a <= b) (qleb a b).
Proof. apply iff_reflect. unfold qleb. symmetry. apply Qle_bool_iff. Qed.
Lemma qltb_spec a b : reflect (a < b) (qltb a b).
Proof.
  apply iff_reflect. unfold qltb. rewrite negb_true_iff.
  destruct (Qle_bool b a) eqn:E.
  - apply Qle_bool_iff in E. split; [lra | discriminate].
  - split; auto. intros _. apply Qnot_le_lt. intro H. apply Qle_bool_iff in H. congruence.
Qed.

Lemma qeqb_true a b : qeqb a b = true <-> a == b.
Proof. destruct (qeqb_spec a b); split; intros; auto; try discriminate; contradiction. Qed.
Lemma qeqb_false a b : qeqb a b = false <-> ~ a == b.
Proof. destruct (qeqb_spec a b); split; intros; auto; try discriminate; contradiction. Qed.
Lemma qltb_true a b : qltb a b = true <-> a < b.
Proof. destruct (qltb_spec a b); split; intros; auto; try discriminate; contradiction. Qed.
Lemma qltb_false a b : qltb a b = false <-> b <= a.
Proof. destruct (qltb_spec a b); split; intros; auto; try discriminate; lra. Qed.
Lemma qleb_true a b : qleb a b = true <-> a <= b.
Proof. destruct (qleb_spec a b); split; intros; auto; try discriminate; contradiction. Qed.
Lemma qleb_false a b : qleb a b = false <-> b < a.
Proof. destruct (qleb_spec a b); split; intros; auto; try discriminate; lra. Qed.

Lemma qeqb_comp a a' b b' : a == a' -> b == b' -> qeqb a b = qeqb a' b'.
Proof. intros. destruct (qeqb_spec a b), (qeqb_spec a' b'); auto; exfalso; lra. Qed.
Lemma qltb_comp a a' b b' : a == a' -> b == b' -> qltb a b = qltb a' b'.
Proof. intros. destruct (qltb_spec a b), (qltb_spec a' b'); auto; exfalso; lra. Qed.
Lemma qleb_comp a a' b b' : a == a' -> b == b' -> qleb a b = qleb a' b'.
Proof. intros. destruct (qleb_spec a b), (qleb_spec a' b'); auto; exfalso; lra. Qed.

(** Destruct the boolean comparisons in the goal one by one, pruning the
    arithmetically impossible branches. *)
Ltac qsplit1 :=
  match goal with
  | |- context [qeqb ?a ?b] => destruct (qeqb_spec a b)
  | |- context [qltb ?a ?b] => destruct (qltb_spec a b)
  | |- context [qleb ?a ?b] => destruct (qleb_spec a b)
  end; cbn [andb orb negb]; try (exfalso; lra).
Ltac qsplit := repeat qsplit1.
Ltac qhyp1 :=
  match goal with
  | H : context [qeqb ?a ?b] |- _ => destruct (qeqb_spec a b)
  | H : context [qltb ?a ?b] |- _ => destruct (qltb_spec a b)
  | H : context [qleb ?a ?b] |- _ => destruct (qleb_spec a b)
  end; cbn [andb orb negb] in *; try (exfalso; lra).
Ltac qhyp := repeat qhyp1.

Lemma Qlt_dense a b : a < b -> exists m, a < m < b.
Proof. intros. exists ((a + b) * (1#2)). split; lra. Qed.

(** Two non-empty open intervals meet iff each starts before the other ends. *)
Lemma interval_overlap a0 a1 b0 b1 :
  a0 < a1 -> b0 < b1 ->
  ((exists y, a0 < y < a1 /\ b0 < y < b1) <-> (a0 < b1 /\ b0 < a1)).
Proof.
  intros Ha Hb. split.
  - intros (y & ? & ?). lra.
  - intros (H1 & H2).
    destruct (Qlt_le_dec a0 b0).
    + destruct (Qlt_le_dec a1 b1).
      * destruct (Qlt_dense b0 a1) as (m & ?); auto. exists m; split; lra.
      * destruct (Qlt_dense b0 b1) as (m & ?); auto. exists m; split; lra.
    + destruct (Qlt_le_dec a1 b1).
      * destruct (Qlt_dense a0 a1) as (m & ?); auto. exists m; split; lra.
      * destruct (Qlt_dense a0 b1) as (m & ?); auto. exists m; split; lra.
Qed.

Lemma qabs_nonneg a : 0 <= a -> qabs a == a.
Proof. unfold qabs. intros. qsplit. lra. Qed.
Lemma qabs_neg a : a <= 0 -> qabs a == - a.
Proof. unfold qabs. intros. qsplit; lra. Qed.
