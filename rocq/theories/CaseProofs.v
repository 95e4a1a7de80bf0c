(** Characterisation of the neighbour case against the geometric specification. *)
From Verif Require Import Base Geo Graph Spec QLib.
Open Scope Q_scope.

(** A box in linear form: contact as conjunctions of linear (in)equalities. *)
Definition lin (d : compass) (a b : box) : Prop :=
  match d with
  | dE  => x1 a == x0 b /\ y0 a < y1 b /\ y0 b < y1 a
  | dW  => x0 a == x1 b /\ y0 a < y1 b /\ y0 b < y1 a
  | dN  => y1 a == y0 b /\ x0 a < x1 b /\ x0 b < x1 a
  | dS  => y0 a == y1 b /\ x0 a < x1 b /\ x0 b < x1 a
  | dNE => x1 a == x0 b /\ y1 a == y0 b
  | dSE => x1 a == x0 b /\ y0 a == y1 b
  | dSW => x0 a == x1 b /\ y0 a == y1 b
  | dNW => x0 a == x1 b /\ y1 a == y0 b
  end.

Lemma touches_lin d a b : proper a -> proper b -> (touches d a b <-> lin d a b).
Proof.
  intros [Ha1 Ha2] [Hb1 Hb2]. destruct d; cbn; try tauto;
    unfold x_overlap, y_overlap; rewrite interval_overlap by assumption; tauto.
Qed.

(** Regular boundaries: non-degenerate, not crossing the antimeridian. *)
Definition regular (b : boundary) : Prop := long_min b < long_max b /\ lat_min b < lat_max b.

Lemma regular_proper b : regular b -> proper (region b).
Proof. intros [H1 H2]. unfold proper, region; cbn. qsplit. auto. Qed.

Lemma regular_x1 b : regular b -> x1 (region b) = long_max b.
Proof. intros [H1 H2]. cbn. destruct (qltb_spec (long_min b) (long_max b)); auto. contradiction. Qed.

Lemma regular_width b : regular b -> get_width b == long_max b - long_min b.
Proof. intros [H1 H2]. unfold get_width. qsplit. lra. Qed.

Lemma code_nonzero d : code d <> 0%Z.
Proof. destruct d; discriminate. Qed.
Lemma code_inj d d' : code d = code d' -> d = d'.
Proof. destruct d, d'; cbn; congruence. Qed.
Lemma code_opposite d : code (opposite d) = (- code d)%Z.
Proof. destruct d; reflexivity. Qed.
Lemma opposite_involutive d : opposite (opposite d) = d.
Proof. destruct d; reflexivity. Qed.

Lemma lin_sym d a b : lin d a b -> lin (opposite d) b a.
Proof. destruct d; cbn; intuition lra. Qed.

Lemma touches_sym d a b : touches d a b -> touches (opposite d) b a.
Proof.
  destruct d; cbn; intros [H1 H2]; split; try (symmetry; assumption);
  destruct H2 as (z & ? & ?); exists z; split; assumption.
Qed.

Lemma lin_unique d d' a b : proper a -> proper b -> lin d a b -> lin d' a b -> d = d'.
Proof.
  intros [Ha1 Ha2] [Hb1 Hb2] H H'.
  destruct d, d'; cbn in *; try reflexivity; exfalso; lra.
Qed.

(** The cascade, as the first direction whose linear condition holds. *)
Lemma case_bounds_lin a b :
  regular a -> regular b ->
  (forall d, get_neighbour_case_bounds a b = code d <-> lin d (region a) (region b)).
Proof.
  intros Ha Hb d.
  pose proof (regular_proper _ Ha) as Pa. pose proof (regular_proper _ Hb) as Pb.
  pose proof (regular_width _ Ha) as Wa. pose proof (regular_width _ Hb) as Wb.
  assert (X : exists z, get_neighbour_case_bounds a b = z /\
     ((z = 0%Z /\ forall d', ~ lin d' (region a) (region b)) \/
      exists d', z = code d' /\ lin d' (region a) (region b))).
  { eexists; split; [reflexivity|].
    pose proof (regular_x1 _ Ha) as Xa. pose proof (regular_x1 _ Hb) as Xb.
    destruct Ha as [Ha1 Ha2], Hb as [Hb1 Hb2].
    unfold get_neighbour_case_bounds. cbv zeta.
    assert (Hga : get_height a == lat_max a - lat_min a) by (unfold get_height; lra).
    assert (Hgb : get_height b == lat_max b - lat_min b) by (unfold get_height; lra).
    generalize dependent (get_width a). generalize dependent (get_width b).
    generalize dependent (get_height a). generalize dependent (get_height b). intros.
    remember (region a) as ra. remember (region b) as rb.
    assert (Ex0a : x0 ra = long_min a) by (subst; reflexivity).
    assert (Ex0b : x0 rb = long_min b) by (subst; reflexivity).
    assert (Ey0a : y0 ra = lat_min a) by (subst; reflexivity).
    assert (Ey0b : y0 rb = lat_min b) by (subst; reflexivity).
    assert (Ey1a : y1 ra = lat_max a) by (subst; reflexivity).
    assert (Ey1b : y1 rb = lat_max b) by (subst; reflexivity).
    clear Heqra Heqrb.
    qsplit;
      first [ right; exists dNE; split; [reflexivity|cbn; rewrite ?Xa, ?Xb, ?Ex0a, ?Ex0b, ?Ey0a, ?Ey0b, ?Ey1a, ?Ey1b; repeat split; lra]
            | right; exists dE; split; [reflexivity|cbn; rewrite ?Xa, ?Xb, ?Ex0a, ?Ex0b, ?Ey0a, ?Ey0b, ?Ey1a, ?Ey1b; repeat split; lra]
            | right; exists dSE; split; [reflexivity|cbn; rewrite ?Xa, ?Xb, ?Ex0a, ?Ex0b, ?Ey0a, ?Ey0b, ?Ey1a, ?Ey1b; repeat split; lra]
            | right; exists dS; split; [reflexivity|cbn; rewrite ?Xa, ?Xb, ?Ex0a, ?Ex0b, ?Ey0a, ?Ey0b, ?Ey1a, ?Ey1b; repeat split; lra]
            | right; exists dSW; split; [reflexivity|cbn; rewrite ?Xa, ?Xb, ?Ex0a, ?Ex0b, ?Ey0a, ?Ey0b, ?Ey1a, ?Ey1b; repeat split; lra]
            | right; exists dW; split; [reflexivity|cbn; rewrite ?Xa, ?Xb, ?Ex0a, ?Ex0b, ?Ey0a, ?Ey0b, ?Ey1a, ?Ey1b; repeat split; lra]
            | right; exists dNW; split; [reflexivity|cbn; rewrite ?Xa, ?Xb, ?Ex0a, ?Ex0b, ?Ey0a, ?Ey0b, ?Ey1a, ?Ey1b; repeat split; lra]
            | right; exists dN; split; [reflexivity|cbn; rewrite ?Xa, ?Xb, ?Ex0a, ?Ex0b, ?Ey0a, ?Ey0b, ?Ey1a, ?Ey1b; repeat split; lra]
            | left; split; [reflexivity|intros d'; destruct d'; cbn; rewrite ?Xa, ?Xb, ?Ex0a, ?Ex0b, ?Ey0a, ?Ey0b, ?Ey1a, ?Ey1b; intro; lra] ]. }
  destruct X as (z & Ez & [[-> Hn] | (d' & -> & Hd')]); rewrite Ez; split.
  - intro E. symmetry in E. destruct (code_nonzero _ E).
  - intro H. destruct (Hn _ H).
  - intro E. apply code_inj in E. subst. exact Hd'.
  - intro H. f_equal. exact (lin_unique _ _ _ _ Pa Pb Hd' H).
Qed.

Definition no_contact (a b : box) : Prop := forall d, ~ lin d a b.

Lemma case_bounds_range a b : regular a -> regular b ->
  get_neighbour_case_bounds a b = 0%Z \/ exists d, get_neighbour_case_bounds a b = code d.
Proof.
  intros _ _. unfold get_neighbour_case_bounds. cbv zeta.
  repeat match goal with |- context [if ?c then _ else _] => destruct c end;
  first [ left; reflexivity
        | right; first [ exists dNE; reflexivity | exists dE; reflexivity | exists dSE; reflexivity
                       | exists dS; reflexivity | exists dSW; reflexivity | exists dW; reflexivity
                       | exists dNW; reflexivity | exists dN; reflexivity ] ].
Qed.

(** ** Global meshes *)
(** Cells of a -180:180 mesh narrower than half the circle. *)
Definition global_ok (b : boundary) : Prop :=
  regular b /\ -180 <= long_min b /\ long_max b <= 180 /\ long_max b - long_min b < 180.

Definition lin_mod (d : compass) (a b : box) : Prop :=
  exists k : Z, lin d a (shift (inject_Z k * 360) b).

Definition wraps_e (d : compass) : bool := match d with dE | dNE | dSE => true | _ => false end.
Definition wraps_w (d : compass) : bool := match d with dW | dNW | dSW => true | _ => false end.

Definition in_circle (a : box) : Prop := proper a /\ -180 <= x0 a /\ x1 a <= 180.

Lemma inject_lt k : (k <= -2)%Z -> inject_Z k <= -2.
Proof. intros. change (-2) with (inject_Z (-2)). rewrite <- Zle_Qle. lia. Qed.
Lemma inject_gt k : (2 <= k)%Z -> 2 <= inject_Z k.
Proof. intros. change 2 with (inject_Z 2). rewrite <- Zle_Qle. lia. Qed.

Lemma lin_mod_cases d a b : in_circle a -> in_circle b ->
  (lin_mod d a b <->
     lin d a b
     \/ (wraps_e d = true /\ lin d a (shift 360 b))
     \/ (wraps_w d = true /\ lin d a (shift (-360) b))).
Proof.
  intros ([Pa1 Pa2] & A1 & A2) ([Pb1 Pb2] & B1 & B2). split.
  - intros (k & H).
    assert (K : (k <= -2 \/ k = -1 \/ k = 0 \/ k = 1 \/ 2 <= k)%Z) by lia.
    destruct K as [K|[-> | [-> | [-> | K]]]].
    + exfalso. apply inject_lt in K. generalize dependent (inject_Z k). intros q H K.
      destruct d; cbn in H; lra.
    + change (inject_Z (-1)) with (-1) in H.
      destruct d; cbn in *; try (exfalso; lra); right; right; split; auto; lra.
    + change (inject_Z 0) with 0 in H.
      left. destruct d; cbn in *; lra.
    + change (inject_Z 1) with 1 in H.
      destruct d; cbn in *; try (exfalso; lra); right; left; split; auto; lra.
    + exfalso. apply inject_gt in K. generalize dependent (inject_Z k). intros q H K.
      destruct d; cbn in H; lra.
  - intros [H | [[_ H] | [_ H]]].
    + exists 0%Z. change (inject_Z 0) with 0. destruct d; cbn in *; lra.
    + exists 1%Z. change (inject_Z 1) with 1. destruct d; cbn in *; lra.
    + exists (-1)%Z. change (inject_Z (-1)) with (-1). destruct d; cbn in *; lra.
Qed.

Lemma global_ok_circle b : global_ok b -> in_circle (region b).
Proof.
  intros (R & H1 & H2 & H3). split; [apply regular_proper; auto|].
  rewrite regular_x1 by auto. auto.
Qed.

Lemma lin_mod_unique d d' a b :
  in_circle a -> in_circle b -> x1 a - x0 a < 180 -> x1 b - x0 b < 180 ->
  lin_mod d a b -> lin_mod d' a b -> d = d'.
Proof.
  intros Ca Cb Wa Wb H H'.
  apply lin_mod_cases in H; auto. apply lin_mod_cases in H'; auto.
  destruct Ca as ([Pa1 Pa2] & A1 & A2), Cb as ([Pb1 Pb2] & B1 & B2).
  destruct d, d'; try reflexivity; exfalso; cbn in *;
  destruct H as [H | [[? H] | [? H]]]; try discriminate;
  destruct H' as [H' | [[? H'] | [? H']]]; try discriminate; lra.
Qed.

Lemma global_case_lin a b :
  global_ok a -> global_ok b ->
  forall d, get_neighbour_case true a b = code d <-> lin_mod d (region a) (region b).
Proof.
  intros Ga Gb d.
  pose proof (global_ok_circle _ Ga) as Ca. pose proof (global_ok_circle _ Gb) as Cb.
  destruct Ga as (Ra & A1 & A2 & A3), Gb as (Rb & B1 & B2 & B3).
  pose proof (regular_x1 _ Ra) as Xa. pose proof (regular_x1 _ Rb) as Xb.
  pose proof (regular_width _ Ra) as Wa. pose proof (regular_width _ Rb) as Wb.
  pose proof (case_bounds_lin _ _ Ra Rb) as HP.
  assert (X : exists z, get_neighbour_case true a b = z /\
     ((z = 0%Z /\ forall d', ~ lin_mod d' (region a) (region b)) \/
      exists d', z = code d' /\ lin_mod d' (region a) (region b))).
  { eexists; split; [reflexivity|]. unfold get_neighbour_case. cbn [andb].
    destruct (on_global_bound a b) eqn:OG.
    - unfold on_global_bound in OG.
      pose proof Ra as [Ha1 Ha2]. pose proof Rb as [Hb1 Hb2].
      unfold get_global_mesh_neighbour_case. cbv zeta.
      assert (Hga : get_height a == lat_max a - lat_min a) by (unfold get_height; lra).
      assert (Hgb : get_height b == lat_max b - lat_min b) by (unfold get_height; lra).
      clear HP.
      assert (Qa : qabs (long_min a) == long_min a /\ 0 <= long_min a \/ qabs (long_min a) == - long_min a /\ long_min a <= 0).
      { destruct (Qlt_le_dec (long_min a) 0); [right; split; [apply qabs_neg|]|left; split; [apply qabs_nonneg|]]; lra. }
      assert (Qb : qabs (long_min b) == long_min b /\ 0 <= long_min b \/ qabs (long_min b) == - long_min b /\ long_min b <= 0).
      { destruct (Qlt_le_dec (long_min b) 0); [right; split; [apply qabs_neg|]|left; split; [apply qabs_nonneg|]]; lra. }
      assert (OG' : (long_min a == -180 /\ long_max b == 180) \/ (long_min b == -180 /\ long_max a == 180)).
      { revert OG. repeat match goal with |- context [qeqb ?p ?q] => destruct (qeqb_spec p q) end; cbn; intros; try discriminate; auto. }
      clear OG.
      assert (LM : forall d', lin_mod d' (region a) (region b) <->
          (lin d' (region a) (region b)
     \/ (wraps_e d' = true /\ lin d' (region a) (shift 360 (region b)))
     \/ (wraps_w d' = true /\ lin d' (region a) (shift (-360) (region b))))).
      { intro. apply lin_mod_cases; auto. }
      generalize dependent (get_width a). generalize dependent (get_width b).
      generalize dependent (get_height a). generalize dependent (get_height b).
      generalize dependent (qabs (long_min a)). generalize dependent (qabs (long_min b)). intros.
      remember (region a) as ra. remember (region b) as rb.
      assert (Ex0a : x0 ra = long_min a) by (subst; reflexivity).
      assert (Ex0b : x0 rb = long_min b) by (subst; reflexivity).
      assert (Ey0a : y0 ra = lat_min a) by (subst; reflexivity).
      assert (Ey0b : y0 rb = lat_min b) by (subst; reflexivity).
      assert (Ey1a : y1 ra = lat_max a) by (subst; reflexivity).
      assert (Ey1b : y1 rb = lat_max b) by (subst; reflexivity).
      clear Heqra Heqrb.
      Ltac fin Xa Xb Ex0a Ex0b Ey0a Ey0b Ey1a Ey1b :=
        cbn; rewrite ?Xa, ?Xb, ?Ex0a, ?Ex0b, ?Ey0a, ?Ey0b, ?Ey1a, ?Ey1b.
      qsplit.
      all: try (left; split; [reflexivity|]; intros d'; rewrite LM; destruct d';
                fin Xa Xb Ex0a Ex0b Ey0a Ey0b Ey1a Ey1b;
                intros [?|[[? ?]|[? ?]]]; try discriminate; lra).
      all: right; eexists; split; [symmetry|].
      all: try (match goal with |- _ = ?z => match eval cbv in z with
             | 1%Z => instantiate (1 := dNE) | 2%Z => instantiate (1 := dE) | 3%Z => instantiate (1 := dSE) | 4%Z => instantiate (1 := dS)
             | (-1)%Z => instantiate (1 := dSW) | (-2)%Z => instantiate (1 := dW) | (-3)%Z => instantiate (1 := dNW) | (-4)%Z => instantiate (1 := dN)
             end end; reflexivity).
      all: apply LM; fin Xa Xb Ex0a Ex0b Ey0a Ey0b Ey1a Ey1b.
      all: first [left; repeat split; lra | right; left; repeat split; lra | right; right; repeat split; lra].
    - assert (NW : ~ long_min a == -180 \/ ~ long_max b == 180).
      { unfold on_global_bound in OG. apply orb_false_iff in OG as [O1 O2].
        apply andb_false_iff in O1 as [O|O]; apply qeqb_false in O; auto. }
      assert (NE : ~ long_min b == -180 \/ ~ long_max a == 180).
      { unfold on_global_bound in OG. apply orb_false_iff in OG as [O1 O2].
        apply andb_false_iff in O2 as [O|O]; apply qeqb_false in O; auto. }
      assert (LM : forall d', lin_mod d' (region a) (region b) -> lin d' (region a) (region b)).
      { intros d' H. apply lin_mod_cases in H; auto. destruct Ra, Rb.
        destruct H as [H | [[? H] | [? H]]]; auto; exfalso; destruct d'; cbn in *; try discriminate;
        rewrite ?Xa, ?Xb in *; destruct NW, NE; try lra;
        match goal with E : (~ ?p == ?q)%Q |- _ => apply E; clear E; qhyp; lra end. }
      destruct (case_bounds_range a b Ra Rb) as [E | [d' E]]; rewrite E.
      + left; split; auto. intros d' H. apply LM in H. apply HP in H. rewrite E in H.
        symmetry in H. eapply code_nonzero; eauto.
      + right; exists d'; split; auto. apply lin_mod_cases; auto. left. apply HP; auto. }
  destruct X as (z & Ez & [[-> Hn] | (d' & -> & Hd')]); rewrite Ez; split.
  - intro E. symmetry in E. destruct (code_nonzero _ E).
  - intro H. destruct (Hn _ H).
  - intro E. apply code_inj in E. subst. exact Hd'.
  - intro H. f_equal. refine (lin_mod_unique _ _ _ _ Ca Cb _ _ Hd' H); rewrite ?Xa, ?Xb; cbn; assumption.
Qed.
